(** * Proofs about numeric effects *)
From Verif Require Import RegModel RegSpec HullModel HullSpec NumModel NumSpec NumProofs MonoProofs HullProofs HullObserved Prelude PreludeProofs.
From Coq Require Import Lqa.
Open Scope string_scope. Open Scope list_scope. Open Scope nat_scope.

Lemma combine_snoc {A B} (l : list A) (m : list B) a b : length l = length m -> combine (l ++ [a]) (m ++ [b]) = combine l m ++ [(a, b)].
Proof. revert m. induction l as [|x l IH]; intros [|y m] L; try discriminate; [reflexivity|]. cbn. f_equal. apply IH. cbn in L. lia. Qed.
Lemma combine_longer {A B} (l : list A) (m m' : list B) : length l = length m -> combine l (m ++ m') = combine l m.
Proof. revert m. induction l as [|x l IH]; intros [|y m] L; try discriminate; [reflexivity|]. cbn. f_equal. apply IH. cbn in L. lia. Qed.
Lemma dict_get_snoc (m : list (text * Q)) (k j : text) (v : Q) : k <> j -> dict_get (m ++ [(j, v)]) k = dict_get m k.
Proof. intros N. induction m as [|[a b] m IH]; cbn; [destruct (eq_dec k j); [contradiction|reflexivity]|]. destruct (eq_dec k a); [reflexivity|exact IH]. Qed.
Lemma combine_keys {A B} (l : list A) (m : list B) : length l = length m -> map fst (combine l m) = l.
Proof. revert m. induction l as [|x l IH]; intros [|y m] L; try discriminate; [reflexivity|]. cbn. f_equal. apply IH. cbn in L. lia. Qed.
Lemma combine_vals {A B} (l : list A) (m : list B) : length l = length m -> map snd (combine l m) = m.
Proof. revert m. induction l as [|x l IH]; intros [|y m] L; try discriminate; [reflexivity|]. cbn. f_equal. apply IH. cbn in L. lia. Qed.
Lemma total_single (val : text -> Q) (m : list (text * Q)) (k : text) (c : Q) : NoDup (dict_keys m) -> dict_get m k = Some c -> (forall j d, In (j, d) m -> j <> k -> (d == 0)%Q) -> (total val m == c * val k)%Q.
Proof.
  intros N G Z. assert (T0 : forall m : list (text * Q), (forall j d, In (j, d) m -> (d == 0)%Q) -> (total val m == 0)%Q).
  { clear. induction m as [|[j d] m IH]; intros Z; [reflexivity|]. cbn [total fold_right fst snd]. fold (total val m). rewrite (IH (fun j' d' I => Z j' d' (or_intror I))), (Z j d (or_introl eq_refl)). ring. }
  pose proof (total_set val m k c 0%Q N G) as E. rewrite T0 in E; [lra|]. intros j d I. assert (N' := dict_set_keys_NoDup m k 0%Q N). apply (dict_In_get _ _ _ N') in I. rewrite dict_get_set in I.
  destruct (eq_dec j k) as [->|D]; [injection I as <-; reflexivity|]. apply dict_get_In in I. eapply Z; eassumption.
Qed.
Lemma function_text_inj f args g args' : function_text f args = function_text g args' -> f = g /\ args = args'.
Proof.
  unfold function_text. intros E. injection E as -> E. split; [reflexivity|]. apply app_inv_tail in E. revert args' E. induction args as [|a args IH]; intros [|b args'] E; try discriminate; [reflexivity|].
  injection E as -> E. f_equal. apply IH. exact E.
Qed.
Lemma targets_form op f args e s g args' : parse e = Some s -> targets (form op (function_text f args) e) g args' -> g = f /\ args' = args.
Proof.
  intros P (op' & e' & E). rewrite (reads_effect op f args e s P) in E. injection E as _ -> E _. split; [reflexivity|]. symmetry. apply symbol_map_inj. exact E.
Qed.

Section R.
Variable unit fine : positive.
Variable fit : list (list Q) -> list Q -> list Q * Q * bool.
Variable rank : list (list Q) -> nat.
Hypothesis FINE : exists k, fine = (unit * k)%positive.
Hypothesis REG : exact_regression unit fit.
Lemma exact_fine c : exact unit c -> (round fine c == c)%Q.
Proof. destruct FINE as (k & ->). intros (z & E). apply round_exact. exists (z * Z.pos k)%Z. rewrite E. unfold Qeq. cbn. rewrite Pos2Z.inj_mul. ring. Qed.

(** A statement of the right form: it changes the function and, unless it scales down, gives the value. *)
Definition good_statement (st : state) (f : string) (args : list string) (t : text) (y : Q) : Prop :=
  exists op s, parse t = Some (SNode [SSym op; SNode (SSym f :: map SSym args); s]) /\ (op = "scale-down" \/ executes st t f args y).
Lemma executes_good st f args t y : executes st t f args y -> good_statement st f args t y.
Proof. intros E. pose proof E as (op & e & x & w & P & _). exists op, e. auto. Qed.

Lemma solve_ok st f args d label row y result : arithmetic f = None -> function_text f args <> dummy_text -> table d -> length label = length (f_rows d) ->
  In (row, y) (combine (f_rows d) label) -> row_state st (f_cols d) row -> solve_linear_equations unit fine fit (function_text f args) d label false = Ok result ->
  match result with
  | Some t => good_statement st f args t y
  | None => (st f args == y)%Q
  end.
Proof.
  intros AF ND (N & R & D) LL I ST E. set (lifted := function_text f args) in *. unfold solve_linear_equations in E. unfold solve_regression_problem in E.
  destruct (f_cols d) as [|c0 cs0] eqn:EC; [discriminate|]. rewrite <- EC in *. clear EC c0 cs0.
  destruct (fit (f_rows d) label) as ((coef & intercept) & one) eqn:EF. destruct one; [|discriminate E]. cbn [negb andb bind] in E.
  destruct REG as (FIT & R1). destruct (FIT (length (f_cols d)) (f_rows d) label coef intercept R LL EF) as (LC & CC & EQ). specialize (R1 (length (f_cols d)) (f_rows d) label coef intercept R EF).
  specialize (EQ row y I). assert (IR : In row (f_rows d)) by (apply in_combine_l in I; exact I). assert (L0 : length row = length (f_cols d)) by (apply R; exact IR).
  destruct (prettify_list_clean unit _ CC) as (PE & PC). set (cv := prettify_coefficients unit (coef ++ [intercept])) in *.
  assert (CV : cv = prettify_coefficients unit coef ++ prettify_coefficients unit [intercept]) by (unfold cv, prettify_coefficients; apply map_app).
  set (cs := prettify_coefficients unit coef) in *. destruct (prettify_coefficients unit [intercept]) as [|i' [|]] eqn:EI; try discriminate EI. clear EI.
  assert (LCS : length (f_cols d) = length cs) by (unfold cs, prettify_coefficients; rewrite map_length; congruence).
  assert (NAMED : combine (f_cols d) cv = combine (f_cols d) cs) by (rewrite CV; apply combine_longer; exact LCS).
  assert (ALL : combine (f_cols d ++ [dummy_text]) cv = combine (f_cols d) cs ++ [(dummy_text, i')]) by (rewrite CV; apply combine_snoc; exact LCS).
  assert (LAST : nth (length (f_cols d)) cv 0%Q = i') by (rewrite CV, app_nth2, LCS, Nat.sub_diag by lia; reflexivity).
  set (names := f_cols d ++ [dummy_text]) in *. set (val := fun c => if Prelude.eqb c dummy_text then 1%Q else value (f_cols d) row c).
  assert (VD : val dummy_text = 1%Q) by (unfold val; rewrite PreludeProofs.eqb_refl; reflexivity).
  assert (VO : forall c, In c (f_cols d) -> val c = value (f_cols d) row c). { intros c C. unfold val. rewrite (proj2 (PreludeProofs.eqb_neq c dummy_text)); [reflexivity|]. intros ->. contradiction. }
  assert (LN : length cv = length names) by (unfold cv, prettify_coefficients, names; rewrite map_length, !app_length, LC; reflexivity).
  assert (SUM : (linear (map val names) cv == y)%Q).
  { rewrite (linear_ext _ _ _ PE). unfold names. rewrite map_app. cbn [map]. rewrite linear_snoc by (rewrite map_length; congruence). rewrite VD, <- EQ.
    assert (M : map val (f_cols d) = row). { transitivity (map (value (f_cols d) row) (f_cols d)); [apply map_ext_in; exact VO|apply map_value; assumption]. } rewrite M. ring. }
  assert (VAL : forall g, In g names -> valued st g (val g)).
  { intros g G. unfold names in G. apply in_app_iff in G. destruct G as [G|[<-|[]]]; [|left; split; [reflexivity|rewrite VD; reflexivity]].
    rewrite (VO g G). right. split; [intros ->; contradiction|]. apply value_state; assumption. }
  assert (NN : NoDup names). { unfold names. apply NoDup_app_iff. split; [exact N|]. split; [constructor; [intros []|constructor]|]. intros x X [<-|[]]. contradiction. }
  assert (ASG : match construct_multiplication_strings unit cv names with [] => Ok None | parts => Ok (Some (form "assign" lifted (construct_linear_equation_string parts))) end = Ok result ->
                ~ Forall (fun c => c == 0)%Q cv -> exists t, result = Some t /\ good_statement st f args t y).
  { intros EA NZ. pose proof (exact_string unit st val names cv VAL LN PC NZ) as DEN. destruct (construct_multiplication_strings unit cv names) as [|p ps] eqn:EM.
    - exfalso. destruct DEN as (s & w & P & _). discriminate P.
    - injection EA as <-. eexists. split; [reflexivity|]. apply executes_good. eapply effect_executes; [exact DEN| |exact SUM].
      intros x X. exists x. split; [reflexivity|exact X]. }
  assert (YI : In y label) by (apply in_combine_r in I; exact I).
  assert (ZZ : Forall (fun c => c == 0)%Q cv -> (y == 0)%Q).
  { intros F. rewrite <- SUM. clear - F. generalize (map val names). intros xs. revert xs. induction F as [|c l Z F IH]; intros [|x xs]; cbn; try reflexivity. rewrite Z, IH. ring. }
  destruct (forallb (fun c => Qeq_bool c 0) cv) eqn:Z.
  - assert (F : Forall (fun c => c == 0)%Q cv) by (apply Forall_forall; intros c C; rewrite forallb_forall in Z; apply Qeq_bool_iff, Z, C).
    destruct (constant_value label) as [v|] eqn:CN.
    + injection E as <-. apply executes_good. eapply effect_executes; [apply denotes_num| |].
      * intros x X. exists x. split; [reflexivity|exact X].
      * symmetry. eapply constant_spec; eassumption.
    + (* an exact equation without coefficients has a constant label *)
      exfalso. assert (LZ : forall z, In z label -> (z == 0)%Q).
      { intros z IZ. assert (exists r, In (r, z) (combine (f_rows d) label)) as (r & IR').
        { clear - IZ LL. revert LL IZ. generalize (f_rows d). intros rows. revert rows. induction label as [|a l IH]; intros rows LL IZ; [destruct IZ|]. destruct rows as [|r rows]; [discriminate|]. cbn.
          destruct IZ as [->|IZ]; [eauto|]. destruct (IH rows) as (r' & H); [cbn in LL; lia|exact IZ|eauto]. }
        destruct (FIT (length (f_cols d)) (f_rows d) label coef intercept R LL EF) as (_ & _ & EQ'). rewrite <- (EQ' r z IR'). assert (F' : Forall (fun c => c == 0)%Q (coef ++ [intercept])) by (eapply Forall_ext_Q; [|exact PE|exact F]; intros a b AB A; rewrite <- AB; exact A).
        apply Forall_app in F'. destruct F' as (F1 & F2). inversion F2 as [|? ? F3 _]; subst. rewrite F3. rewrite Qplus_0_r. clear - F1. revert r. induction F1 as [|c l Z F IH]; intros [|x xs]; cbn; try reflexivity. rewrite Z, IH. ring. }
      destruct label as [|a l]; [destruct YI|]. cbn in CN. assert (X : forallb (Qeq_bool a) l = true); [|rewrite X in CN; discriminate]. apply forallb_forall. intros z IZ. apply Qeq_bool_iff.
      rewrite (LZ a (or_introl eq_refl)), (LZ z (or_intror IZ)). reflexivity.
  - assert (NZ : ~ Forall (fun c => c == 0)%Q cv).
    { intros F. assert (X : forallb (fun c => Qeq_bool c 0) cv = true); [|congruence]. apply forallb_forall. intros c C. rewrite Forall_forall in F. apply Qeq_bool_iff, F, C. }
    unfold calculate_scale_factor in E. rewrite NAMED, LAST in E.
    assert (ASG' : match construct_multiplication_strings unit cv names with [] => Ok None | parts => Ok (Some (form "assign" lifted (construct_linear_equation_string parts))) end = Ok result ->
                   match result with Some t => good_statement st f args t y | None => (st f args == y)%Q end).
    { intros EA. destruct (ASG EA NZ) as (t & -> & G). exact G. }
    destruct (dict_get (combine (f_cols d) cs) lifted) as [c|] eqn:G; [|apply ASG'; exact E].
    assert (INL : In lifted (f_cols d)). { apply dict_get_In in G. apply in_combine_l in G. exact G. }
    assert (VL : (val lifted == st f args)%Q).
    { rewrite (VO lifted INL). apply (denotes_unique st lifted); [apply value_state; assumption|apply denotes_function; exact AF]. }
    assert (GA : dict_get (combine names cv) lifted = Some c) by (rewrite ALL, dict_get_snoc by exact ND; exact G).
    assert (KA : dict_keys (combine names cv) = names) by (apply combine_keys; symmetry; exact LN).
    assert (VA : dict_vals (combine names cv) = cv) by (apply combine_vals; symmetry; exact LN).
    assert (TOT : (total val (combine names cv) == y)%Q) by (rewrite total_linear, KA, VA; exact SUM).
    assert (CI : forall j e, In (j, e) (combine names cv) -> clean unit e) by (intros j e J; rewrite Forall_forall in PC; apply PC; apply in_combine_r in J; exact J).
    destruct (negb (Qeq_bool c 0) && _ && _) eqn:SC.
    + apply andb_true_iff in SC. destruct SC as (SC & S3). apply andb_true_iff in SC. destruct SC as (S1 & S2). apply Qeq_bool_iff in S3. rewrite forallb_forall in S2.
      assert (TS : (y == c * st f args)%Q).
      { rewrite <- TOT, <- VL. apply total_single; [rewrite KA; exact NN|exact GA|]. intros j e J JN. rewrite ALL in J. apply in_app_iff in J. destruct J as [J|[J|[]]]; [|injection J as <- <-; exact S3].
        specialize (S2 (j, e) J). cbn [fst snd] in S2. rewrite (proj2 (PreludeProofs.eqb_neq j lifted) JN) in S2. apply Qeq_bool_iff. exact S2. }
      assert (EX : exact unit c) by (apply (CI lifted c), dict_get_In; exact GA). pose proof (exact_fine c EX) as RC.
      destruct (Qeq_bool (round fine c) 1) eqn:Q1.
      * injection E as <-. apply Qeq_bool_iff in Q1. rewrite TS, <- RC, Q1. ring.
      * injection E as <-. destruct (Qltb 1 (round fine c)).
        -- apply executes_good. eapply effect_executes; [apply denotes_num| |].
           ++ intros x X. exists (st f args * x)%Q. split; [reflexivity|]. rewrite X. reflexivity.
           ++ rewrite RC, TS. ring.
        -- exists "scale-down", (SNum (round fine c)). split; [apply (reads_effect "scale-down" f args); reflexivity|auto].
    + destruct (Qeq_bool c 0) eqn:C0; [apply ASG'; exact E|]. destruct (extract_non_zero_change _ _) as (next & previous).
      rewrite (dict_of_NoDup (combine names cv)) in E by (fold (dict_keys (combine names cv)); rewrite KA; exact NN).
      assert (CL1 : clean unit (c - 1)).
      { apply dict_get_In in G. assert (X : exists c', In c' coef /\ (c == c')%Q).
        { apply in_combine_r in G. unfold cs, prettify_coefficients in G. apply in_map_iff in G. destruct G as (c' & <- & IC). exists c'. split; [exact IC|]. apply prettify_clean.
          rewrite Forall_forall in CC. apply CC. apply in_app_iff. left. exact IC. }
        destruct X as (c' & IC & EQC). rewrite Forall_forall in R1. eapply clean_ext; [|apply (R1 c' IC)]. rewrite EQC. reflexivity. }
      destruct (non_circular unit st val f args (combine names cv) c previous next) as (t & ET & EX).
      * exact AF.
      * rewrite KA. exact NN.
      * rewrite KA. exact VAL.
      * exact GA.
      * intros j e J _. apply (CI j e J).
      * exact CL1.
      * exact ND.
      * intros (C1 & OZ). assert (X : negb (Qeq_bool c 0) && forallb (fun fc => Prelude.eqb (fst fc) lifted || Qeq_bool (snd fc) 0) (combine (f_cols d) cs) && Qeq_bool i' 0 = true); [|rewrite ?C0 in *; cbn [negb andb] in *; congruence].
        rewrite C0. cbn [negb andb]. apply andb_true_iff. split.
        -- apply forallb_forall. intros (j & e) J. cbn [fst snd]. destruct (Prelude.eqb j lifted) eqn:B; [reflexivity|]. cbn. apply Qeq_bool_iff. apply (OZ j e); [rewrite ALL; apply in_app_iff; left; exact J|].
           apply PreludeProofs.eqb_neq. exact B.
        -- apply Qeq_bool_iff. apply (OZ dummy_text i'); [rewrite ALL; apply in_app_iff; right; left; reflexivity|]. intros X. apply ND. symmetry. exact X.
      * fold lifted in ET. rewrite ET in E. cbn [bind] in E. injection E as <-. apply executes_good.
        destruct EX as (op & e & x & w & P & V & UP & W). exists op, e, x, w. split; [exact P|]. split; [exact V|]. split; [exact UP|]. rewrite W. exact TOT.
Qed.

(** ** Pairs of rows *)
Definition pair_eq (a b : list Q * list Q) : Prop := Forall2 Qeq (fst a) (fst b) /\ Forall2 Qeq (snd a) (snd b).
Lemma pair_eqb_spec a b : pair_eqb a b = true <-> pair_eq a b.
Proof. unfold pair_eqb, pair_eq. rewrite andb_true_iff, !Qs_eqb_spec. reflexivity. Qed.
Lemma dedup_pairs_incl rows r : In r (dedup_pairs rows) -> In r rows.
Proof. revert r. induction rows as [|s rows IH]; intros r I; [exact I|]. cbn in I. destruct I as [<-|I]; [left; reflexivity|]. apply filter_In in I. right. apply IH. tauto. Qed.
Lemma dedup_pairs_rep rows r : In r rows -> exists r', In r' (dedup_pairs rows) /\ pair_eq r' r.
Proof.
  induction rows as [|u rows IH]; intros I; [destruct I|]. cbn. destruct I as [<-|I]; [exists u; split; [left; reflexivity|split; apply Qs_refl]|].
  destruct (IH I) as (r' & A & (B1 & B2)). destruct (pair_eqb u r') eqn:E.
  - exists u. split; [left; reflexivity|]. apply pair_eqb_spec in E. destruct E as (E1 & E2). split; eapply Qs_trans; eassumption.
  - exists r'. split; [right; apply filter_In; rewrite E; auto|split; assumption].
Qed.
Lemma row_state_ext st cols a b : Forall2 Qeq a b -> row_state st cols b -> row_state st cols a.
Proof.
  intros E. revert cols. induction E as [|x y a b XY E IH]; intros cols H c v I; [destruct cols; destruct I|]. destruct cols as [|k cols]; [destruct I|]. cbn in I. destruct I as [I|I].
  - injection I as <- <-. eapply denotes_ext; [symmetry; exact XY|]. apply H. left. reflexivity.
  - apply (IH cols); [|exact I]. intros c' v' I'. apply H. right. exact I'.
Qed.
Lemma value_ext cols a b c : Forall2 Qeq a b -> (value cols a c == value cols b c)%Q.
Proof. intros E. revert cols. unfold value, get_col. induction E as [|x y a b XY E IH]; intros [|k cols]; cbn; try reflexivity. destruct (eq_dec c k); [exact XY|apply IH]. Qed.
Lemma value_pair cols row c v : NoDup cols -> In (c, v) (combine cols row) -> value cols row c = v.
Proof. intros N I. unfold value, get_col. rewrite (dict_In_get (combine cols row) c v); [reflexivity| |exact I]. clear I. unfold dict_keys. revert row. induction N as [|k cols I N IH]; intros [|x row]; try constructor; [|apply IH].
  intros J. apply in_map_iff in J. destruct J as ((a & b) & E & J). cbn in E. subst a. apply in_combine_l in J. contradiction. Qed.

(** The chosen features are some of the columns of the given rows. *)
Definition part_of (d d' : frame) : Prop := exists keep, f_cols d' = filter keep (f_cols d) /\ f_rows d' = map (restrict (f_cols d) (f_cols d')) (f_rows d).
Lemma part_drop d keep : part_of d (drop_columns d keep).
Proof. exists keep. split; reflexivity. Qed.
Lemma part_refl d : table d -> part_of d d.
Proof.
  intros (N & R & D). exists (fun _ => true). split.
  - symmetry. apply filter_all'. reflexivity.
  - rewrite <- (map_id (f_rows d)) at 1. apply map_ext_in. intros r I. symmetry. apply row_self; [exact N|apply R; exact I].
Qed.
Lemma part_table d d' : table d -> part_of d d' -> table d'.
Proof.
  intros (N & R & D) (keep & E1 & E2). split; [rewrite E1; apply NoDup_filter; exact N|]. split.
  - intros r I. rewrite E2 in I. apply in_map_iff in I. destruct I as (r0 & <- & I). unfold restrict. apply map_length.
  - rewrite E1. intros I. apply filter_In in I. apply D. apply I.
Qed.
Lemma part_trans d1 d2 d3 : table d1 -> part_of d1 d2 -> part_of d2 d3 -> part_of d1 d3.
Proof.
  intros T (k2 & A1 & A2) (k3 & B1 & B2). exists (fun c => k2 c && k3 c). split.
  - rewrite B1, A1. clear. induction (f_cols d1) as [|c l IH]; [reflexivity|]. cbn. destruct (k2 c) eqn:E2; cbn; [|rewrite IH; reflexivity]. destruct (k3 c); [f_equal|]; exact IH.
  - rewrite B2, A2, map_map. apply map_ext. intros r. unfold restrict at 1 3. apply map_ext_in. intros c C.
    assert (C2 : In c (f_cols d2)) by (rewrite B1 in C; apply filter_In in C; apply C). rewrite get_col_restrict by exact C2. reflexivity.
Qed.
Lemma filter_constant_part d filtered constants : table d -> filter_constant_features d = (filtered, constants) -> filtered = mk_frame [] [] \/ part_of d filtered.
Proof. intros T E. unfold filter_constant_features in E. destruct (length (f_cols d) =? _); injection E as <- _; [auto|right; apply part_drop]. Qed.
Lemma detect_part d features conditions : table d -> detect_linear_dependent_features unit d = (features, conditions) -> part_of d features.
Proof. intros T E. unfold detect_linear_dependent_features in E. destruct (length (f_rows d) <? 2); injection E as <- _; [apply part_refl; exact T|apply part_drop]. Qed.

Lemma pair_columns P N (g h : list Q -> Q) p n : Forall2 Qeq (map g P) (map h N) -> In (p, n) (combine P N) -> (g p == h n)%Q.
Proof.
  revert N. induction P as [|a P IH]; intros [|b N] F I; try (destruct I; fail). cbn in I. inversion F; subst. destruct I as [I|I]; [injection I as <- <-; assumption|eapply IH; eassumption].
Qed.
Lemma rows_combine (rows : list (list Q * list Q)) (g : list Q -> list Q) (h : list Q -> Q) p n : In (p, n) rows -> In (g p, h n) (combine (map g (map fst rows)) (map h (map snd rows))).
Proof. induction rows as [|(a & b) rows IH]; intros I; [destruct I|]. cbn. destruct I as [I|I]; [injection I as -> ->; left; reflexivity|right; apply IH; exact I]. Qed.

Lemma keep_relevant_table l relevant : table (l_prev l) -> table (l_next l) -> table (l_prev (keep_relevant l relevant)) /\ table (l_next (keep_relevant l relevant)).
Proof. intros T1 T2. destruct relevant as [fs|]; [|auto]. cbn. split; apply drop_table; assumption. Qed.

(** ** The learned effects *)
Lemma fluent_ok l features rows st p n : table (l_prev l) -> table (l_next l) ->
  observed l p n -> row_state st (f_cols (l_prev l)) p -> (exists p' n', In (p', n') rows /\ pair_eq (p', n') (p, n)) ->
  incl (map fst rows) (f_rows (l_prev l)) ->
  (features = mk_frame [] [] \/ part_of (mk_frame (f_cols (l_prev l)) (map fst rows)) features) ->
  forall f args ts, arithmetic f = None -> In (function_text f args) (f_cols (l_next l)) -> fluent_effect unit fine fit l features rows false (function_text f args) = Ok ts ->
    (forall t, In t ts -> good_statement st f args t (value (f_cols (l_next l)) n (function_text f args))) /\
    (ts = [] -> (st f args == value (f_cols (l_next l)) n (function_text f args))%Q).
Proof.
  intros TP TN OB ST (p' & n' & IP & (PE1 & PE2)) INC PART f args ts AF INF E. cbn [fst snd] in *. set (lifted := function_text f args) in *.
  assert (ND : lifted <> dummy_text) by (intros X; apply TN; rewrite <- X; exact INF).
  unfold fluent_effect in E. destruct (memb lifted (f_cols (l_prev l))) eqn:M; [|discriminate]. cbn [negb] in E. apply memb_In in M.
  assert (OP : In p (f_rows (l_prev l))) by (apply in_combine_l in OB; exact OB). assert (LP : length p = length (f_cols (l_prev l))) by (apply TP; exact OP).
  assert (VP : (value (f_cols (l_prev l)) p lifted == st f args)%Q) by (apply (denotes_unique st lifted); [apply value_state; assumption|apply denotes_function; exact AF]).
  destruct (Qs_eqb (column (l_prev l) lifted) (column (l_next l) lifted)) eqn:EQ.
  - injection E as <-. split; [intros t []|]. intros _. apply Qs_eqb_spec in EQ. rewrite <- VP. exact (pair_columns _ _ _ _ p n EQ OB).
  - destruct (solve_linear_equations _ _ _ _ _ _ _) as [r|] eqn:ES; [|discriminate]. cbn [bind] in E. injection E as <-.
    destruct PART as [->|PART]; [discriminate ES|]. set (d0 := mk_frame (f_cols (l_prev l)) (map fst rows)) in *.
    assert (T0 : table d0). { destruct TP as (A & B & C). split; [exact A|]. split; [|exact C]. intros r0 I0. apply B, INC, I0. }
    pose proof (part_table d0 features T0 PART) as TF. destruct PART as (keep & K1 & K2). cbn [f_cols f_rows d0] in K1, K2.
    assert (ST' : row_state st (f_cols (l_prev l)) p') by (eapply row_state_ext; eassumption).
    assert (LP' : length p' = length (f_cols (l_prev l))). { apply T0. cbn. apply in_map_iff. exists (p', n'). auto. }
    pose proof (solve_ok st f args features (column (mk_frame (f_cols (l_next l)) (map snd rows)) lifted) (restrict (f_cols (l_prev l)) (f_cols features) p') (value (f_cols (l_next l)) n' lifted) r AF ND TF) as H.
    specialize (H ltac:(unfold column; cbn [f_rows f_cols]; rewrite K2, !map_length; reflexivity)).
    specialize (H ltac:(rewrite K2; unfold column; cbn [f_rows f_cols]; exact (rows_combine rows (restrict (f_cols (l_prev l)) (f_cols features)) (fun r => value (f_cols (l_next l)) r lifted) p' n' IP))).
    specialize (H ltac:(apply restrict_state; [exact LP'|exact ST'|rewrite K1; intros x X; apply filter_In in X; apply X]) ES).
    pose proof (value_ext (f_cols (l_next l)) n' n lifted PE2) as VE. destruct r as [t|].
    + split; [|discriminate]. intros t' [<-|[]]. destruct H as (op & s & P & [SD|EX]); exists op, s; (split; [exact P|]); [auto|right].
      destruct EX as (op' & e & x & w & P' & V & UP & W). exists op', e, x, w. split; [exact P'|]. split; [exact V|]. split; [exact UP|]. rewrite W. exact VE.
    + split; [intros t []|]. intros _. rewrite H. exact VE.
Qed.
Lemma executes_ext st t f args v w : (v == w)%Q -> executes st t f args v -> executes st t f args w.
Proof. intros E (op & e & x & u & P & V & UP & W). exists op, e, x, u. split; [exact P|]. split; [exact V|]. split; [exact UP|]. rewrite W. exact E. Qed.
Lemma good_other st f args t y g args' : good_statement st f args t y -> targets t g args' -> g = f /\ args' = args.
Proof. intros (op & s & P & _) (op' & e & P'). rewrite P in P'. injection P' as _ -> E _. split; [reflexivity|]. symmetry. apply symbol_map_inj. exact E. Qed.
Lemma good_targets st f args t y : good_statement st f args t y -> targets t f args /\ (scales_down t \/ executes st t f args y).
Proof. intros (op & s & P & H). split; [exists op, s; exact P|]. destruct H as [->|H]; [left; eexists; exact P|auto]. Qed.
(** Statements found fluent by fluent. *)
Lemma collect_gives st cols (g : text -> res (list text)) (vals : text -> Q) ss : (forall c, In c cols -> is_function c) -> map_res g cols = Ok ss ->
  (forall f args ts, arithmetic f = None -> In (function_text f args) cols -> g (function_text f args) = Ok ts ->
     (forall t, In t ts -> good_statement st f args t (vals (function_text f args))) /\ (ts = [] -> (st f args == vals (function_text f args))%Q)) ->
  forall f args, In (function_text f args) cols -> gives st (concat ss) f args (vals (function_text f args)).
Proof.
  intros FC M H f args I. apply map_res_Ok in M. split.
  - intros t T TG. apply in_concat in T. destruct T as (ts & TS & T). assert (X : exists c, In c cols /\ g c = Ok ts).
    { clear - M TS. induction M as [|a b l m E M IH]; [destruct TS|]. destruct TS as [->|TS]; [exists a; split; [left; reflexivity|exact E]|]. destruct (IH TS) as (c & C & G). exists c. split; [right; exact C|exact G]. }
    destruct X as (c & C & G). destruct (FC c C) as (f' & args' & -> & AF). destruct (H f' args' ts AF C G) as (H1 & _). specialize (H1 t T). destruct (good_other _ _ _ _ _ _ _ H1 TG) as (-> & ->).
    apply (good_targets _ _ _ _ _ H1).
  - assert (X : exists ts, In ts ss /\ g (function_text f args) = Ok ts).
    { clear - M I. induction M as [|a b l m E M IH]; [destruct I|]. destruct I as [->|I]; [exists b; split; [left; reflexivity|exact E]|]. destruct (IH I) as (ts & C & G). exists ts. split; [right; exact C|exact G]. }
    destruct X as (ts & TS & G). destruct (FC _ I) as (f' & args' & E & AF). apply function_text_inj in E. destruct E as (<- & <-). destruct (H f args ts AF I G) as (H1 & H2). destruct ts as [|t ts]; [right; apply H2; reflexivity|left].
    exists t. split; [apply in_concat; exists (t :: ts); split; [exact TS|left; reflexivity]|]. apply (good_targets st f args t (vals (function_text f args))). apply H1. left. reflexivity.
Qed.
Lemma keep_observed l relevant p n st : table (l_prev l) -> table (l_next l) -> observed l p n -> row_state st (f_cols (l_prev l)) p -> let l' := keep_relevant l relevant in
  exists p' n', observed l' p' n' /\ row_state st (f_cols (l_prev l')) p' /\ (forall c, In c (f_cols (l_next l')) -> value (f_cols (l_next l')) n' c = value (f_cols (l_next l)) n c).
Proof.
  intros TP TN OB ST l'. unfold l'. destruct relevant as [fs|]; [|exists p, n; auto]. cbn [keep_relevant l_prev l_next drop_columns f_cols f_rows].
  eexists _, _. split; [|split].
  - unfold observed. cbn [l_prev l_next drop_columns f_rows]. instantiate (1 := restrict (f_cols (l_next l)) (filter (fun c => memb c fs) (f_cols (l_next l))) n). instantiate (1 := restrict (f_cols (l_prev l)) (filter (fun c => memb c fs) (f_cols (l_prev l))) p).
    unfold observed in OB. revert OB. generalize (f_rows (l_prev l)) (f_rows (l_next l)). intros P. induction P as [|a P IH]; intros [|b N] I; try destruct I. + injection H as <- <-. left. reflexivity. + right. apply IH. exact H.
  - apply restrict_state; [apply TP; apply in_combine_l in OB; exact OB|exact ST|]. intros x X. apply filter_In in X. apply X.
  - intros c C. unfold value at 1. rewrite get_col_restrict by exact C. reflexivity.
Qed.
Lemma keep_cols l relevant f : In f (f_cols (l_next l)) -> wanted relevant f -> In f (f_cols (l_next (keep_relevant l relevant))).
Proof. intros I W. destruct relevant as [fs|]; [|exact I]. cbn. apply filter_In. split; [exact I|apply memb_In; exact W]. Qed.
Lemma keep_functions l relevant : function_columns (l_next l) -> function_columns (l_next (keep_relevant l relevant)).
Proof. intros H. destruct relevant as [fs|]; [|exact H]. intros c C. cbn in C. apply filter_In in C. apply H. apply C. Qed.

(** After keeping the relevant fluents. *)
Definition learn_rows (allow : bool) (k : learner) : res (learner * list text * option (list text) * bool) :=
  if negb (length (f_rows (l_prev k)) =? length (f_rows (l_next k))) then (match f_rows (l_prev k), f_cols (l_next k) with [], [] => Ok (k, [], None, false) | _, _ => Err ValueError end)
  else
    let rows := dedup_pairs (combine (f_rows (l_prev k)) (f_rows (l_next k))) in
    match rows with
    | [_] => Ok (k, construct_effect_from_single_sample k, None, false)
    | _ =>
        let (filtered, constants) := filter_constant_features (mk_frame (f_cols (l_prev k)) (map fst rows)) in
        let (features, dependencies) := detect_linear_dependent_features unit filtered in
        let safe := validate_legal_equations rank features in
        let* statements := map_res (fluent_effect unit fine fit k features rows allow) (f_cols (l_next k)) in
        Ok (k, concat statements, if safe then conditions_or_none (dependencies ++ constants) else None, safe)
    end.
Lemma construct_unfold l allow relevant : construct_assignment_equations unit fine fit rank l allow relevant =
  match relevant with Some [] => Ok (l, [], None, false) | _ => match f_rows (l_next l) with [] => Ok (l, [], None, false) | _ => learn_rows allow (keep_relevant l relevant) end end.
Proof. unfold construct_assignment_equations, learn_rows. destruct relevant as [[|]|]; destruct (f_rows (l_next l)); reflexivity. Qed.
Lemma single_gives k st p1 n1 p' n' P NR : table (l_prev k) -> table (l_next k) -> function_columns (l_next k) -> row_state st (f_cols (l_prev k)) p1 -> pair_eq (p', n') (p1, n1) ->
  f_rows (l_prev k) = p' :: P -> f_rows (l_next k) = n' :: NR ->
  forall f args, In (function_text f args) (f_cols (l_next k)) -> gives st (construct_effect_from_single_sample k) f args (value (f_cols (l_next k)) n1 (function_text f args)).
Proof.
  intros TPK TNK FK ST1 (PE1 & PE2) HP HN f args INK. cbn [fst snd] in *. unfold construct_effect_from_single_sample. rewrite HP, HN. rewrite flat_map_concat_map.
  refine (collect_gives st (f_cols (l_next k)) (fun f => Ok (match get_col (f_cols (l_next k)) n' f with None => [] | Some v => match get_col (f_cols (l_prev k)) p' f with Some u => if Qeq_bool u v then [] else [form "assign" f [Num v]] | None => [form "assign" f [Num v]] end end))
      (value (f_cols (l_next k)) n1) _ FK _ _ f args INK).
  - apply map_res_total. reflexivity.
  - intros f0 args0 ts AF I0 EF. injection EF as <-. set (lf := function_text f0 args0) in *.
    pose proof (value_ext (f_cols (l_next k)) n' n1 lf PE2) as VE. unfold value at 1 in VE.
    assert (LN' : length n' = length (f_cols (l_next k))) by (apply TNK; rewrite HN; left; reflexivity).
    assert (GN : exists v', get_col (f_cols (l_next k)) n' lf = Some v').
    { destruct (get_col (f_cols (l_next k)) n' lf) as [v'|] eqn:G; [eauto|]. exfalso. unfold get_col in G. apply dict_get_None in G. apply G. unfold dict_keys. rewrite combine_keys; [exact I0|symmetry; exact LN']. }
    destruct GN as (v' & GN). rewrite GN in *.
    assert (GS : good_statement st f0 args0 (form "assign" lf [Num v']) (value (f_cols (l_next k)) n1 lf)).
    { apply executes_good. eapply effect_executes; [apply denotes_num| |exact VE]. intros x X. exists x. split; [reflexivity|exact X]. }
    assert (OUT : (forall t, In t [form "assign" lf [Num v']] -> good_statement st f0 args0 t (value (f_cols (l_next k)) n1 lf)) /\
                  ([form "assign" lf [Num v']] = [] -> (st f0 args0 == value (f_cols (l_next k)) n1 lf)%Q)) by (split; [intros t [<-|[]]; exact GS|discriminate]).
    destruct (get_col (f_cols (l_prev k)) p' lf) as [u|] eqn:GP; [destruct (Qeq_bool u v') eqn:UV; [|exact OUT]|exact OUT].
    split; [intros t []|]. intros _. apply Qeq_bool_iff in UV. rewrite <- VE, <- UV.
    assert (STP : row_state st (f_cols (l_prev k)) p') by (eapply row_state_ext; eassumption).
    assert (DU : denotes st lf u) by (apply STP; apply dict_get_In; exact GP). apply (denotes_unique st lf); [apply denotes_function; exact AF|exact DU].
Qed.
Lemma learn_gives k k' effects conditions safe : table (l_prev k) -> table (l_next k) -> function_columns (l_next k) -> learn_rows false k = Ok (k', effects, conditions, safe) ->
  forall p1 n1 st f args, observed k p1 n1 -> row_state st (f_cols (l_prev k)) p1 -> In (function_text f args) (f_cols (l_next k)) ->
    gives st effects f args (value (f_cols (l_next k)) n1 (function_text f args)).
Proof.
  intros TPK TNK FK E p1 n1 st f args OB1 ST1 INK. unfold learn_rows in E.
  destruct (negb (length (f_rows (l_prev k)) =? length (f_rows (l_next k)))) eqn:EL; [exfalso; unfold observed in OB1; destruct (f_rows (l_prev k)); [destruct OB1|discriminate]|]. apply negb_false_iff, Nat.eqb_eq in EL.
  set (rows := dedup_pairs (combine (f_rows (l_prev k)) (f_rows (l_next k)))) in *.
  destruct (dedup_pairs_rep _ _ OB1) as ((p' & n') & IP & PE). fold rows in IP.
  assert (INC : incl (map fst rows) (f_rows (l_prev k))) by (intros x X; apply in_map_iff in X; destruct X as ((a & b) & <- & X); apply dedup_pairs_incl in X; apply in_combine_l in X; exact X).
  assert (MAIN : forall ss, map_res (fluent_effect unit fine fit k (fst (detect_linear_dependent_features unit (fst (filter_constant_features (mk_frame (f_cols (l_prev k)) (map fst rows)))))) rows false) (f_cols (l_next k)) = Ok ss ->
         gives st (concat ss) f args (value (f_cols (l_next k)) n1 (function_text f args))).
  { intros ss M. refine (collect_gives st _ _ (value (f_cols (l_next k)) n1) ss FK M _ f args INK). intros f0 args0 ts AF I0 EF.
    refine (fluent_ok k _ rows st p1 n1 TPK TNK OB1 ST1 (ex_intro _ p' (ex_intro _ n' (conj IP PE))) INC _ f0 args0 ts AF I0 EF).
    set (d0 := mk_frame (f_cols (l_prev k)) (map fst rows)).
    assert (T0 : table d0) by (destruct TPK as (A & B & C); split; [exact A|]; split; [|exact C]; intros r I; apply B, INC, I).
    destruct (filter_constant_features d0) as (filtered & cc) eqn:EFC. cbn [fst].
    destruct (detect_linear_dependent_features unit filtered) as (features & dd) eqn:ED. cbn [fst].
    destruct (filter_constant_part d0 filtered cc T0 EFC) as [->|PF].
    - left. cbn in ED. injection ED as <- _. reflexivity.
    - right. eapply part_trans; [exact T0|exact PF|]. eapply detect_part; [eapply part_table; eassumption|exact ED]. }
  destruct rows as [|u [|u2 us]] eqn:EU; [destruct IP| |].
  - injection E as _ <- _ _. destruct IP as [->|[]].
    assert (HD : exists P N, f_rows (l_prev k) = p' :: P /\ f_rows (l_next k) = n' :: N).
    { unfold rows in EU. destruct (f_rows (l_prev k)) as [|a P]; [discriminate EU|]. destruct (f_rows (l_next k)) as [|b N]; [discriminate EU|]. cbn in EU. injection EU as -> -> _. eauto. }
    destruct HD as (P & NR & HP & HN). eapply single_gives; eassumption.
  - rewrite <- EU in *. destruct (filter_constant_features (mk_frame (f_cols (l_prev k)) (map fst rows))) as (filtered & cc). cbn [fst] in MAIN.
    destruct (detect_linear_dependent_features unit filtered) as (features & dd). cbn [fst] in MAIN.
    destruct (map_res (fluent_effect unit fine fit k features rows false) (f_cols (l_next k))) as [ss|] eqn:EM; [|discriminate]. cbn [bind] in E. injection E as _ <- _ _. apply MAIN. reflexivity.
Qed.
Theorem effects_reproduce l relevant l' effects conditions safe : table (l_prev l) -> table (l_next l) -> function_columns (l_next l) ->
  construct_assignment_equations unit fine fit rank l false relevant = Ok (l', effects, conditions, safe) ->
  forall p n st f args v, observed l p n -> row_state st (f_cols (l_prev l)) p -> In (function_text f args, v) (combine (f_cols (l_next l)) n) -> wanted relevant (function_text f args) ->
    gives st effects f args v.
Proof.
  intros TP TN FC E p n st f args v OB ST IV W. rewrite construct_unfold in E.
  assert (INF : In (function_text f args) (f_cols (l_next l))) by (apply in_combine_l in IV; exact IV).
  assert (VV : value (f_cols (l_next l)) n (function_text f args) = v) by (apply value_pair; [apply TN|exact IV]).
  pose proof (keep_cols l relevant (function_text f args) INF W) as INK. pose proof (keep_functions l relevant FC) as FK. destruct (keep_relevant_table l relevant TP TN) as (TPK & TNK).
  destruct (keep_observed l relevant p n st TP TN OB ST) as (p1 & n1 & OB1 & ST1 & V1). specialize (V1 _ INK). rewrite VV in V1. rewrite <- V1.
  assert (NE : f_rows (l_next l) <> []). { intros EN. unfold observed in OB. rewrite EN in OB. destruct (f_rows (l_prev l)); destruct OB. }
  assert (E' : learn_rows false (keep_relevant l relevant) = Ok (l', effects, conditions, safe)).
  { destruct relevant as [[|]|]; [destruct W| |]; destruct (f_rows (l_next l)); try congruence; exact E. }
  eapply learn_gives; eassumption.
Qed.

(** ** The additional conditions *)
Lemma find_first {A} (g : A -> bool) l x : find g l = Some x -> In x l /\ g x = true.
Proof. apply find_some. Qed.
Lemma ratio_spec d c1 c2 row0 : In row0 (f_rows d) -> is_constant d c1 = false -> is_constant d c2 = false -> proportional (column d c1) (column d c2) = true ->
  exists k, (exists r, In r (f_rows d) /\ ~ (value (f_cols d) r c1 == 0)%Q) /\ forall row, In row (f_rows d) -> (value (f_cols d) row c2 == k * value (f_cols d) row c1)%Q /\
    (Qeq_bool (extract_numeric_linear_coefficient unit (column d c2) (column d c1)) 0 = false -> exact unit k -> (extract_numeric_linear_coefficient unit (column d c2) (column d c1) == k)%Q).
Proof.
  intros RW0 C1 C2 P. unfold column in P.
  assert (MIN : forall r s, In r (f_rows d) -> In s (f_rows d) -> (value (f_cols d) r c1 * value (f_cols d) s c2 == value (f_cols d) s c1 * value (f_cols d) r c2)%Q).
  { intros r s R S. unfold proportional in P. rewrite forallb_forall in P.
    assert (CI : forall q, In q (f_rows d) -> In (value (f_cols d) q c1, value (f_cols d) q c2) (combine (map (fun r => match get_col (f_cols d) r c1 with Some v => v | None => 0%Q end) (f_rows d)) (map (fun r => match get_col (f_cols d) r c2 with Some v => v | None => 0%Q end) (f_rows d)))).
    { clear. intros q Q'. induction (f_rows d) as [|a l IH]; [destruct Q'|]. cbn. destruct Q' as [->|Q']; [left; reflexivity|right; apply IH; exact Q']. }
    specialize (P _ (CI r R)). rewrite forallb_forall in P. specialize (P _ (CI s S)). cbn [fst snd] in P. apply Qeq_bool_iff in P. exact P. }
  destruct (existsb (fun r => negb (Qeq_bool (value (f_cols d) r c1) 0)) (f_rows d)) eqn:EX.
  - apply existsb_exists in EX. destruct EX as (r & R & H). apply negb_true_iff, Qeq_bool_neq in H. exists (value (f_cols d) r c2 / value (f_cols d) r c1)%Q.
    assert (K : forall row, In row (f_rows d) -> (value (f_cols d) row c2 == value (f_cols d) r c2 / value (f_cols d) r c1 * value (f_cols d) row c1)%Q).
    { intros row RW. pose proof (MIN r row R RW) as M. setoid_replace (value (f_cols d) row c2) with (value (f_cols d) r c1 * value (f_cols d) row c2 / value (f_cols d) r c1)%Q by (field; exact H). rewrite M. field. exact H. }
    set (k := (value (f_cols d) r c2 / value (f_cols d) r c1)%Q) in *. split; [exists r; auto|]. intros row H0. split; [apply K; exact H0|]. intros NZ EK. unfold extract_numeric_linear_coefficient in *.
    destruct (find _ _) as [v|] eqn:F.
    + apply find_some in F. destruct F as (F & B). apply in_map_iff in F. destruct F as ((y & x) & <- & F). cbn [fst snd] in *.
      assert (X : exists q, In q (f_rows d) /\ y = value (f_cols d) q c2 /\ x = value (f_cols d) q c1).
      { clear - F. unfold column in F. induction (f_rows d) as [|a l IH]; [destruct F|]. cbn in F. destruct F as [F|F]; [injection F as <- <-; exists a; split; [left; reflexivity|auto]|].
        destruct (IH F) as (q & Q' & E). exists q. split; [right; exact Q'|exact E]. }
      destruct X as (q & IQ & -> & ->). specialize (K q IQ). destruct (Qeq_bool (value (f_cols d) q c1) 0) eqn:Z.
      * exfalso. apply Qeq_bool_iff in Z. rewrite Z in K. apply Qltb_lt in B. assert (Y : (value (f_cols d) q c2 / (1 # 1000000000) == 0)%Q) by (rewrite K; field). rewrite Y in B. discriminate B.
      * apply Qeq_bool_neq in Z. assert (KE : (value (f_cols d) q c2 / value (f_cols d) q c1 == k)%Q) by (rewrite K; field; exact Z). rewrite prettify_round, (round_comp unit _ _ KE). apply round_exact. exact EK.
    + exfalso. assert (Z : (prettify_floating_point_number unit (round unit 0) == 0)%Q) by (rewrite prettify_round; apply round_exact, (exact_int unit 0)). apply Qeq_bool_iff in Z. congruence.
  - assert (Z : forall r, In r (f_rows d) -> (value (f_cols d) r c1 == 0)%Q).
    { intros r R. destruct (Qeq_bool (value (f_cols d) r c1) 0) eqn:B; [apply Qeq_bool_iff; exact B|]. assert (X : existsb (fun r => negb (Qeq_bool (value (f_cols d) r c1) 0)) (f_rows d) = true); [|congruence]. apply existsb_exists. exists r. rewrite B. auto. }
    exfalso. assert (X : is_constant d c1 = true); [|congruence]. unfold is_constant, column. destruct (f_rows d) as [|a l] eqn:ER; [destruct RW0|]. cbn [map constant_value].
    assert (Y : forallb (Qeq_bool (value (f_cols d) a c1)) (map (fun r => value (f_cols d) r c1) l) = true).
    { apply forallb_forall. intros x X. apply in_map_iff in X. destruct X as (b & <- & B). apply Qeq_bool_iff. rewrite (Z a (or_introl eq_refl)), (Z b (or_intror B)). reflexivity. }
    unfold value in Y. rewrite Y. reflexivity.
Qed.
Lemma value_combine cols row c : length row = length cols -> In c cols -> In (c, value cols row c) (combine cols row).
Proof.
  intros L I. unfold value, get_col. revert row L. induction cols as [|k cols IH]; intros [|x row] L; try discriminate; [destruct I|]. cbn [combine dict_get]. destruct (eq_dec c k) as [->|D]; [left; reflexivity|].
  right. apply IH; [destruct I as [->|I]; [congruence|exact I]|cbn in L; lia].
Qed.
Lemma constants_hold st d row : In row (f_rows d) -> length row = length (f_cols d) -> row_state st (f_cols d) row -> forall filtered cs, filter_constant_features d = (filtered, cs) -> forall t, In t cs -> satisfied st t.
Proof.
  intros I L ST filtered cs E t T. unfold filter_constant_features in E. destruct (length (f_cols d) =? _); injection E as _ <-; [destruct T|]. apply in_map_iff in T. destruct T as ((c & v) & <- & H). cbn [fst snd].
  apply in_flat_map in H. destruct H as (c' & C & H). destruct (constant_value (column d c')) as [v'|] eqn:EC; [|destruct H]. destruct H as [H|[]]. injection H as -> ->.
  apply (satisfied_form st "=" c [Num v] (value (f_cols d) row c) v); [apply value_state; assumption|apply denotes_num|]. apply comparison_eq. eapply constant_spec; [exact EC|]. apply column_in. exact I.
Qed.
Lemma dependencies_hold st d row : table d -> exact_ratios unit d -> In row (f_rows d) -> row_state st (f_cols d) row ->
  forall features cs, detect_linear_dependent_features unit d = (features, cs) -> forall t, In t cs -> satisfied st t.
Proof.
  intros (N & R & D) EXR I ST features cs E t T. assert (L : length row = length (f_cols d)) by (apply R; exact I). unfold detect_linear_dependent_features in E.
  destruct (length (f_rows d) <? 2); injection E as _ <-; [destruct T|].
  apply in_map_iff in T. destruct T as ((dep & t') & <- & T). cbn [snd]. apply in_flat_map in T. destruct T as ((c1 & c2) & CC & T). apply pairs2_In_l in CC. destruct CC as (I1 & I2).
  apply filter_In in I1. destruct I1 as (I1 & N1). apply filter_In in I2. destruct I2 as (I2 & N2). apply negb_true_iff in N1. apply negb_true_iff in N2.
  destruct (proportional (column d c1) (column d c2)) eqn:P; [|destruct T]. destruct (Qeq_bool (extract_numeric_linear_coefficient unit (column d c2) (column d c1)) 0) eqn:K0; [destruct T|]. destruct T as [T|[]]. injection T as <- <-.
  destruct (ratio_spec d c1 c2 row I N1 N2 P) as (k & (r0 & IR0 & NZ0) & K).
  assert (EK : exact unit k).
  { apply (EXR c1 c2 k I1 I2).
    - exists r0, (value (f_cols d) r0 c1). split; [exact IR0|]. split; [|exact NZ0]. apply value_combine; [apply R; exact IR0|exact I1].
    - intros r u v IR U V. rewrite <- (value_pair _ _ _ _ N U), <- (value_pair _ _ _ _ N V). apply K. exact IR. }
  destruct (K row I) as (K1 & K2). specialize (K2 K0 EK).
  apply (satisfied_form st "=" c2 _ (value (f_cols d) row c2) (k * value (f_cols d) row c1)%Q); [apply value_state; assumption| |apply comparison_eq; exact K1].
  eapply denotes_ext; [|apply denotes_times; [apply denotes_num|apply value_state; [exact L|exact ST|exact I1]]]. rewrite K2. reflexivity.
Qed.
Lemma ratios_part d d' : table d -> part_of d d' -> exact_ratios unit d -> exact_ratios unit d'.
Proof.
  intros (N & R & D) (keep & E1 & E2) H c1 c2 k I1 I2 NZ K.
  assert (J1 : In c1 (f_cols d)) by (rewrite E1 in I1; apply filter_In in I1; apply I1). assert (J2 : In c2 (f_cols d)) by (rewrite E1 in I2; apply filter_In in I2; apply I2).
  apply (H c1 c2 k J1 J2).
  { destruct NZ as (row & u & IR & U & NZ). rewrite E2 in IR. apply in_map_iff in IR. destruct IR as (r0 & <- & IR). exists r0, u. split; [exact IR|]. split; [|exact NZ].
    unfold restrict in U. apply combine_map_same in U. destruct U as (_ & ->). apply value_combine; [apply R; exact IR|exact J1]. }
  intros row u v IR U V. apply (K (restrict (f_cols d) (f_cols d') row)).
  - rewrite E2. apply in_map_iff. exists row. auto.
  - rewrite <- (value_pair _ _ _ _ N U). unfold restrict. clear - I1. induction (f_cols d') as [|c l IH]; [destruct I1|]. cbn. destruct I1 as [->|I1]; [left; reflexivity|right; apply IH; exact I1].
  - rewrite <- (value_pair _ _ _ _ N V). unfold restrict. clear - I2. induction (f_cols d') as [|c l IH]; [destruct I2|]. cbn. destruct I2 as [->|I2]; [left; reflexivity|right; apply IH; exact I2].
Qed.
Theorem conditions_hold l relevant allow l' effects conditions safe : table (l_prev l) -> table (l_next l) -> exact_ratios unit (l_prev l) ->
  construct_assignment_equations unit fine fit rank l allow relevant = Ok (l', effects, conditions, safe) ->
  forall p n st, observed l p n -> row_state st (f_cols (l_prev l)) p -> all_satisfied st conditions.
Proof.
  intros TP TN EXR E p n st OB ST. destruct conditions as [cs|]; [|exact Logic.I].
  assert (X : exists rows filtered cc features dd safe', let k := keep_relevant l relevant in rows = dedup_pairs (combine (f_rows (l_prev k)) (f_rows (l_next k))) /\ filter_constant_features (mk_frame (f_cols (l_prev k)) (map fst rows)) = (filtered, cc) /\
     detect_linear_dependent_features unit filtered = (features, dd) /\ (if safe' : bool then conditions_or_none (dd ++ cc) else None) = Some cs /\ length (f_rows (l_prev k)) = length (f_rows (l_next k))).
  { rewrite construct_unfold in E. assert (E' : learn_rows allow (keep_relevant l relevant) = Ok (l', effects, Some cs, safe)).
    { destruct relevant as [[|]|]; [discriminate| |]; destruct (f_rows (l_next l)); try discriminate; exact E. }
    clear E. cbn zeta. set (k := keep_relevant l relevant) in *. clearbody k. unfold learn_rows in E'.
    destruct (negb (length (f_rows (l_prev k)) =? length (f_rows (l_next k)))) eqn:EL; [destruct (f_rows (l_prev k)), (f_cols (l_next k)); discriminate|]. apply negb_false_iff, Nat.eqb_eq in EL. set (rows := dedup_pairs (combine (f_rows (l_prev k)) (f_rows (l_next k)))) in *.
    exists rows. destruct (filter_constant_features (mk_frame (f_cols (l_prev k)) (map fst rows))) as (filtered & cc) eqn:EF. exists filtered, cc. destruct (detect_linear_dependent_features unit filtered) as (features & dd) eqn:ED.
    exists features, dd, (validate_legal_equations rank features). split; [reflexivity|]. split; [reflexivity|]. split; [reflexivity|]. split; [|exact EL].
    destruct rows as [|u [|u2 us]]; try discriminate E'; destruct (map_res _ _); try discriminate E'; cbn [bind] in E'; injection E' as _ _ E1 E2; exact E1. }
  destruct X as (rows & filtered & cc & features & dd & safe' & ER & EF & ED & EC & EL).
  destruct (keep_relevant_table l relevant TP TN) as (TPK & TNK). destruct (keep_observed l relevant p n st TP TN OB ST) as (p1 & n1 & OB1 & ST1 & _).
  set (k := keep_relevant l relevant) in *. destruct (dedup_pairs_rep _ _ OB1) as ((p' & n') & IP & (PE & _)). rewrite <- ER in IP. cbn [fst] in PE.
  assert (INC : incl (map fst rows) (f_rows (l_prev k))) by (intros x X; apply in_map_iff in X; destruct X as ((a & b) & <- & X); rewrite ER in X; apply dedup_pairs_incl in X; apply in_combine_l in X; exact X).
  set (d0 := mk_frame (f_cols (l_prev k)) (map fst rows)) in *.
  assert (T0 : table d0) by (destruct TPK as (A & B & C); split; [exact A|]; split; [|exact C]; intros r I; apply B, INC, I).
  assert (I0 : In p' (f_rows d0)) by (cbn; apply in_map_iff; exists (p', n'); auto). assert (ST' : row_state st (f_cols d0) p') by (eapply row_state_ext; [exact PE|exact ST1]).
  assert (EXK : exact_ratios unit (l_prev k)).
  { unfold k. destruct relevant as [fs|]; [|exact EXR]. cbn [keep_relevant l_prev]. eapply ratios_part; [exact TP|apply part_drop|exact EXR]. }
  assert (EX0 : exact_ratios unit d0).
  { intros c1 c2 q J1 J2 NZ K. apply (EXK c1 c2 q J1 J2).
    { destruct NZ as (r0 & u & IR & U & NZ). exists r0, u. split; [apply INC; exact IR|auto]. }
    intros row u v IR U V.
    assert (OBX : exists m, In (row, m) (combine (f_rows (l_prev k)) (f_rows (l_next k)))).
    { revert EL IR. generalize (f_rows (l_prev k)) (f_rows (l_next k)). clear. intros P. induction P as [|a P IH]; intros [|b M] EL IR; try discriminate EL; [destruct IR|]. cbn. destruct IR as [->|IR]; [exists b; auto|].
      destruct (IH M) as (m & H); [cbn in EL; lia|exact IR|exists m; auto]. }
    destruct OBX as (m & OBX). destruct (dedup_pairs_rep _ _ OBX) as ((r' & m') & IRM & (RE & _)). cbn [fst] in RE. rewrite <- ER in IRM.
    assert (IR' : In r' (f_rows d0)) by (cbn; apply in_map_iff; exists (r', m'); auto).
    assert (VV : forall c w, In (c, w) (combine (f_cols (l_prev k)) row) -> exists w', In (c, w') (combine (f_cols d0) r') /\ (w' == w)%Q).
    { clear - RE. cbn [f_cols d0]. generalize (f_cols (l_prev k)). intros cols. revert cols. induction RE as [|x y a b XY F IH]; intros [|c0 cols] c w H; try (destruct H; fail). cbn in H. destruct H as [H|H].
      - injection H as -> ->. exists x. split; [left; reflexivity|exact XY].
      - destruct (IH cols c w H) as (w' & H1 & H2). exists w'. split; [right; exact H1|exact H2]. }
    destruct (VV c1 u U) as (u' & U' & UE). destruct (VV c2 v V) as (v' & V' & VE). rewrite <- UE, <- VE. eapply K; eassumption. }
  cbn [all_satisfied]. destruct safe'; [|discriminate]. assert (CS : cs = dd ++ cc) by (destruct (dd ++ cc); [discriminate|injection EC as ->; reflexivity]). subst cs. intros t T. apply in_app_iff in T. destruct T as [T|T].
  - destruct (filter_constant_part d0 filtered cc T0 EF) as [->|PF]; [cbn in ED; injection ED as _ <-; destruct T|].
    pose proof (part_table d0 filtered T0 PF) as TF. pose proof (ratios_part d0 filtered T0 PF EX0) as EXF. destruct PF as (keep & K1 & K2).
    refine (dependencies_hold st filtered (restrict (f_cols d0) (f_cols filtered) p') TF EXF _ _ features dd ED t T).
    + rewrite K2. apply in_map_iff. exists p'. auto.
    + apply restrict_state; [apply T0; exact I0|exact ST'|rewrite K1; intros x X; apply filter_In in X; apply X].
  - refine (constants_hold st d0 p' I0 _ ST' filtered cc EF t T). apply T0. exact I0.
Qed.
End R.
