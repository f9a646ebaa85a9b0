(** * States that satisfy the learned conditions lie in the hull of the observations *)
From Verif Require Import HullModel HullSpec NumModel NumSpec NumProofs MonoProofs HullProofs HullObserved Prelude PreludeProofs.
From Coq Require Import Lqa.
Open Scope string_scope. Open Scope list_scope. Open Scope nat_scope.

(** ** Weighted means *)
Definition total_weight (ws : list Q) : Q := fold_right Qplus 0%Q ws.
Definition mean (rows : list (list Q)) (ws : list Q) (g : list Q -> Q) : Q := linear (map g rows) ws.
Definition weights (rows : list (list Q)) (ws : list Q) : Prop := length ws = length rows /\ Forall (Qle 0) ws /\ (total_weight ws == 1)%Q.
Lemma mean_ext rows ws g h : (forall r, In r rows -> (g r == h r)%Q) -> (mean rows ws g == mean rows ws h)%Q.
Proof.
  unfold mean. revert ws. induction rows as [|r rows IH]; intros [|w ws] H; cbn; try reflexivity. rewrite (H r (or_introl eq_refl)), (IH ws); [reflexivity|]. intros s I. apply H. right. exact I.
Qed.
Lemma mean_plus rows ws g h : (mean rows ws (fun r => g r + h r) == mean rows ws g + mean rows ws h)%Q.
Proof. unfold mean. revert ws. induction rows as [|r rows IH]; intros [|w ws]; cbn; try ring. rewrite IH. ring. Qed.
Lemma mean_minus rows ws g h : (mean rows ws (fun r => g r - h r) == mean rows ws g - mean rows ws h)%Q.
Proof. unfold mean. revert ws. induction rows as [|r rows IH]; intros [|w ws]; cbn; try ring. rewrite IH. ring. Qed.
Lemma mean_scale rows ws k g : (mean rows ws (fun r => k * g r) == k * mean rows ws g)%Q.
Proof. unfold mean. revert ws. induction rows as [|r rows IH]; intros [|w ws]; cbn; try ring. rewrite IH. ring. Qed.
Lemma mean_const rows ws k : length ws = length rows -> (mean rows ws (fun _ => k) == k * total_weight ws)%Q.
Proof. unfold mean, total_weight. revert ws. induction rows as [|r rows IH]; intros [|w ws] L; try discriminate; cbn; [ring|]. rewrite IH by (cbn in L; lia). ring. Qed.
Lemma mean_one rows ws k : weights rows ws -> (mean rows ws (fun _ => k) == k)%Q.
Proof. intros (L & _ & S). rewrite mean_const by exact L. rewrite S. ring. Qed.
Lemma mean_zero rows ws : (mean rows ws (fun _ => 0) == 0)%Q.
Proof. unfold mean. revert ws. induction rows as [|r rows IH]; intros [|w ws]; cbn; try reflexivity. rewrite IH. ring. Qed.
Lemma mean_map rows ws f g : mean (map f rows) ws g = mean rows ws (fun r => g (f r)).
Proof. unfold mean. rewrite map_map. reflexivity. Qed.
(** The mean of a linear form is the form of the means. *)
Lemma mean_linear {A} rows ws (g : A -> list Q -> Q) keys : forall cs, (mean rows ws (fun r => linear (map (fun k => g k r) keys) cs) == linear (map (fun k => mean rows ws (g k)) keys) cs)%Q.
Proof.
  induction keys as [|k keys IH]; intros [|c cs]; cbn [map linear]; try apply mean_zero. rewrite mean_plus, mean_scale, IH. reflexivity.
Qed.

(** A value between two values of a list is a mean of the list. *)
Lemma one_weight l v : In v l -> exists ws, length ws = length l /\ Forall (Qle 0) ws /\ (total_weight ws == 1)%Q /\ (linear l ws == v)%Q.
Proof.
  induction l as [|x l IH]; intros I; [destruct I|]. destruct I as [->|I].
  - exists (1%Q :: map (fun _ => 0%Q) l). split; [cbn; rewrite map_length; reflexivity|]. split; [constructor; [discriminate|]; apply Forall_forall; intros q X; apply in_map_iff in X; destruct X as (? & <- & _); discriminate|].
    assert (Z : (total_weight (map (fun _ => 0%Q) l) == 0)%Q /\ (linear l (map (fun _ => 0%Q) l) == 0)%Q).
    { clear. induction l as [|x l (I1 & I2)]; [split; reflexivity|]. cbn [map linear]. split; [unfold total_weight in *; cbn; rewrite I1; reflexivity|]. rewrite I2. ring. }
    destruct Z as (Z1 & Z2). unfold total_weight in *. cbn [fold_right linear]. rewrite Z1, Z2. split; ring.
  - destruct (IH I) as (ws & L & N & S & E). exists (0%Q :: ws). split; [cbn; lia|]. split; [constructor; [discriminate|exact N]|]. unfold total_weight in *. cbn [fold_right linear]. rewrite S, E. split; ring.
Qed.
Lemma two_weights l t ws1 ws2 : (0 <= t)%Q -> (t <= 1)%Q -> length ws1 = length l -> length ws2 = length l -> Forall (Qle 0) ws1 -> Forall (Qle 0) ws2 ->
  let ws := map (fun ab => ((1 - t) * fst ab + t * snd ab)%Q) (combine ws1 ws2) in
  length ws = length l /\ Forall (Qle 0) ws /\ (total_weight ws == (1 - t) * total_weight ws1 + t * total_weight ws2)%Q /\ (linear l ws == (1 - t) * linear l ws1 + t * linear l ws2)%Q.
Proof.
  intros T0 T1. revert ws1 ws2. induction l as [|x l IH]; intros [|a ws1] [|b ws2] L1 L2 N1 N2; try discriminate; cbn zeta; unfold total_weight in *.
  - cbn. split; [reflexivity|]. split; [constructor|]. split; ring.
  - inversion N1; inversion N2; subst. destruct (IH ws1 ws2) as (I1 & I2 & I3 & I4); try assumption; [cbn in L1; lia|cbn in L2; lia|]. cbn [combine map length fold_right linear fst snd]. rewrite I3, I4.
    split; [lia|]. split; [constructor; [|exact I2]|split; ring]. assert (0 <= (1 - t) * a)%Q by (apply Qmult_le_0_compat; lra). assert (0 <= t * b)%Q by (apply Qmult_le_0_compat; lra). lra.
Qed.
Lemma between_weights l lo hi x : In lo l -> In hi l -> (lo <= x)%Q -> (x <= hi)%Q -> exists ws, length ws = length l /\ Forall (Qle 0) ws /\ (total_weight ws == 1)%Q /\ (linear l ws == x)%Q.
Proof.
  intros I1 I2 A B. destruct (one_weight l lo I1) as (ws1 & L1 & N1 & S1 & E1). destruct (one_weight l hi I2) as (ws2 & L2 & N2 & S2 & E2).
  destruct (Qeq_dec lo hi) as [E|D]; [exists ws1; repeat split; try assumption; lra|]. assert (P : (0 < hi - lo)%Q).
  { destruct (Qlt_le_dec lo hi); [lra|]. exfalso. apply D. lra. }
  set (t := ((x - lo) / (hi - lo))%Q). assert (T : (t * (hi - lo) == x - lo)%Q) by (unfold t; field; lra).
  assert (T0 : (0 <= t)%Q) by (unfold t; apply Qle_shift_div_l; [exact P|lra]). assert (T1 : (t <= 1)%Q) by (unfold t; apply Qle_shift_div_r; [exact P|lra]).
  destruct (two_weights l t ws1 ws2 T0 T1 L1 L2 N1 N2) as (R1 & R2 & R3 & R4). eexists. split; [exact R1|]. split; [exact R2|]. split; [rewrite R3, S1, S2; ring|]. rewrite R4, E1, E2.
  setoid_replace ((1 - t) * lo + t * hi)%Q with (lo + t * (hi - lo))%Q by ring. rewrite T. ring.
Qed.

(** ** The hull by columns *)
Definition agrees (d : frame) (x : list Q) (ws : list Q) (c : text) : Prop := (value (f_cols d) x c == mean (f_rows d) ws (fun r => value (f_cols d) r c))%Q.
Lemma hull_columns d x : table d -> length x = length (f_cols d) -> (exists ws, weights (f_rows d) ws /\ forall c, In c (f_cols d) -> agrees d x ws c) -> in_hull (f_rows d) x.
Proof.
  intros (N & R & _) L (ws & (W1 & W2 & W3) & A). exists ws. split; [exact W1|]. split; [exact W2|]. split; [exact W3|]. intros j J.
  assert (V : forall row, length row = length (f_cols d) -> nth j row 0%Q = value (f_cols d) row (nth j (f_cols d) [])).
  { intros row LR. rewrite <- (map_value (f_cols d) row N LR) at 1. rewrite (nth_indep _ 0%Q (value (f_cols d) row [])) by (rewrite map_length; lia). apply map_nth. }
  rewrite (V x L). unfold agrees in A. rewrite (A (nth j (f_cols d) [])) by (apply nth_In; lia). unfold mean. 
  assert (M : map (fun r => value (f_cols d) r (nth j (f_cols d) [])) (f_rows d) = map (fun r => nth j r 0%Q) (f_rows d)) by (apply map_ext_in; intros r I; symmetry; apply V, R, I). rewrite M. reflexivity.
Qed.
Lemma hull_points_columns d x : table d -> length x = length (f_cols d) -> in_hull (f_rows d) x -> exists ws, weights (f_rows d) ws /\ forall c, In c (f_cols d) -> agrees d x ws c.
Proof.
  intros (N & R & _) L (ws & W1 & W2 & W3 & A). exists ws. split; [split; [exact W1|split; [exact W2|exact W3]]|]. intros c C. apply (In_nth _ _ []) in C. destruct C as (j & J & E).
  assert (V : forall row, length row = length (f_cols d) -> nth j row 0%Q = value (f_cols d) row c).
  { intros row LR. rewrite <- (map_value (f_cols d) row N LR) at 1. rewrite (nth_indep _ 0%Q (value (f_cols d) row [])) by (rewrite map_length; exact J). rewrite map_nth. exact (f_equal (value (f_cols d) row) E). }
  unfold agrees. rewrite <- (V x L), (A j (eq_ind_r (fun n => j < n) J L)). unfold mean.
  assert (M : map (fun r => value (f_cols d) r c) (f_rows d) = map (fun r => nth j r 0%Q) (f_rows d)) by (apply map_ext_in; intros r I; symmetry; apply V, R, I). rewrite M. reflexivity.
Qed.

Section S.
Variable unit : positive.
Variable fit : list (list Q) -> list Q -> list Q * Q * bool.
Variable hull : list (list Q) -> option (list (list Q) * list Q).
Variable gram : list (list Q) -> list (list Q).
Variable complement : nat -> list (list Q) -> list (list Q).
Notation construct := (construct_safe_linear_inequalities unit fit hull gram complement).

(** ** Reading the conditions back *)
Lemma scheme_back st vars vals a b sign : Forall2 (denotes st) vars vals -> ~ In dummy_text vars ->
  Forall (fun r => length r = length vars /\ ~ Forall (fun c => c == 0)%Q r /\ Forall (clean unit) r) a ->
  (forall t, In t (construct_pddl_inequality_scheme unit a b vars sign) -> satisfied st t) ->
  forall r beta, In (r, beta) (combine a b) -> comparison sign (linear vals r) beta.
Proof.
  intros D ND A SAT r beta I. rewrite Forall_forall in A. destruct (A r (in_combine_l _ _ _ _ I)) as (A1 & A2 & A3). destruct (lookup_values st _ _ D) as (val & V & E).
  assert (X : satisfied st (form sign (construct_linear_equation_string (construct_multiplication_strings unit r vars)) [Num beta])).
  { apply SAT. unfold construct_pddl_inequality_scheme. apply in_map_iff. exists (r, beta). split; [reflexivity|exact I]. }
  refine (proj1 (satisfied_form st sign _ _ (linear vals r) beta _ (denotes_num _ _)) X).
  eapply denotes_ext; [apply linear_ext_l; exact E|]. apply exact_string; [|exact A1|exact A3|exact A2]. intros f F. right. split; [intros ->; contradiction|apply V; exact F].
Qed.
Lemma dependency_incl d features : forall removed conditions removed' conditions', dependency_loop unit fit d features removed conditions = (removed', conditions') -> incl conditions conditions' /\ incl removed removed'.
Proof.
  induction features as [|f features IH]; intros removed conditions removed' conditions' E; cbn [dependency_loop] in E; [injection E as <- <-; split; apply incl_refl|].
  destruct (filter _ (f_cols d)) as [|o os]; [injection E as <- <-; split; apply incl_refl|]. destruct (fit _ _) as ((coef & intercept) & one). destruct (negb one); [apply IH; exact E|].
  destruct (forallb _ _); apply IH in E; destruct E as (E1 & E2); (split; [intros t T; apply E1, in_app_iff; left; exact T|intros t T; apply E2, in_app_iff; left; exact T]).
Qed.
Lemma dependency_back st d x ws : exact_fit unit fit -> table d -> length x = length (f_cols d) -> row_state st (f_cols d) x -> weights (f_rows d) ws ->
  forall features removed conditions, incl features (f_cols d) -> 
  forall removed' conditions', dependency_loop unit fit d features removed conditions = (removed', conditions') -> (forall t, In t conditions' -> satisfied st t) ->
  (forall c, In c (f_cols d) -> ~ In c removed' -> agrees d x ws c) -> forall c, In c (f_cols d) -> ~ In c removed -> agrees d x ws c.
Proof.
  intros FIT T L0 ST W. induction features as [|f features IH]; intros removed conditions INC removed' conditions' E SAT AG; cbn [dependency_loop] in E; [injection E as <- <-; exact AG|].
  set (others := filter (fun c => negb (Prelude.eqb c f) && negb (memb c removed)) (f_cols d)) in *. destruct others as [|o os] eqn:EO; [injection E as <- <-; exact AG|]. rewrite <- EO in E.
  assert (INF : incl features (f_cols d)) by (intros y Y; apply INC; right; exact Y). assert (FC : In f (f_cols d)) by (apply INC; left; reflexivity).
  destruct (fit (map (restrict (f_cols d) others) (f_rows d)) (column d f)) as ((coef & intercept) & one) eqn:EF. destruct one; cbn [negb] in E.
  2: { apply (IH removed conditions INF removed' conditions' E SAT AG). }
  destruct (FIT (length others) (map (restrict (f_cols d) others) (f_rows d)) (column d f) coef intercept) as (LC & CC & EQ); [|unfold column; rewrite !map_length; reflexivity|exact EF|].
  { intros r R. apply in_map_iff in R. destruct R as (r0 & <- & R). unfold restrict. rewrite map_length. reflexivity. }
  assert (INC' : incl others (f_cols d)) by (intros y Y; subst others; apply filter_In in Y; apply Y).
  assert (EQR : forall row, In row (f_rows d) -> (linear (map (value (f_cols d) row) others) coef + intercept == value (f_cols d) row f)%Q).
  { intros row I. apply EQ. unfold column. clear - I. induction (f_rows d) as [|r rows IH]; [destruct I|]. cbn. destruct I as [->|I]; [left; reflexivity|right; apply IH; exact I]. }
  destruct (prettify_list_clean unit _ CC) as (PE & PC). set (cs := prettify_coefficients unit (coef ++ [intercept])) in *.
  set (val := fun c => if Prelude.eqb c dummy_text then 1%Q else value (f_cols d) x c).
  assert (VD : val dummy_text = 1%Q) by (unfold val; rewrite PreludeProofs.eqb_refl; reflexivity).
  assert (VO : forall c, In c (f_cols d) -> val c = value (f_cols d) x c). { intros c C. unfold val. rewrite (proj2 (PreludeProofs.eqb_neq c dummy_text)); [reflexivity|]. intros ->. apply T. exact C. }
  assert (SUM : (linear (map val (others ++ [dummy_text])) cs == linear (map (value (f_cols d) x) others) coef + intercept)%Q).
  { rewrite (linear_ext _ _ _ PE). rewrite map_app. cbn [map]. rewrite linear_snoc by (rewrite map_length; congruence). rewrite VD.
    assert (M : map val others = map (value (f_cols d) x) others) by (apply map_ext_in; intros c C; apply VO, INC', C). rewrite M. ring. }
  assert (FD : denotes st f (value (f_cols d) x f)) by (apply value_state; [exact L0|exact ST|exact FC]).
  (** the equation of [f] in the state *)
  assert (MAIN : forall condition, In condition conditions' -> condition = (if forallb (fun c => Qeq_bool c 0) cs then form "=" f [Num 0] else form "=" f (construct_linear_equation_string (construct_multiplication_strings unit cs (others ++ [dummy_text])))) ->
            (value (f_cols d) x f == linear (map (value (f_cols d) x) others) coef + intercept)%Q).
  { intros condition IC ->. specialize (SAT _ IC). rewrite <- SUM. destruct (forallb (fun c => Qeq_bool c 0) cs) eqn:Z.
    - apply (satisfied_form st "=" f [Num 0] _ _ FD (denotes_num _ _)) in SAT. apply comparison_eq in SAT. rewrite SAT. symmetry.
      assert (ZZ : forall xs l, forallb (fun c => Qeq_bool c 0) l = true -> (linear xs l == 0)%Q).
      { clear. induction xs as [|y xs IH]; intros [|c l] H; cbn; try reflexivity. cbn in H. apply andb_true_iff in H. destruct H as (H1 & H2). apply Qeq_bool_iff in H1. rewrite H1, (IH l H2). ring. }
      apply ZZ. exact Z.
    - assert (DE : denotes st (construct_linear_equation_string (construct_multiplication_strings unit cs (others ++ [dummy_text]))) (linear (map val (others ++ [dummy_text])) cs)).
      { apply exact_string.
        - intros g G. apply in_app_iff in G. destruct G as [G|[<-|[]]]; [|left; split; [reflexivity|rewrite VD; reflexivity]].
          rewrite (VO g (INC' g G)). right. split; [intros ->; apply T; apply INC'; exact G|]. apply value_state; [exact L0|exact ST|apply INC'; exact G].
        - unfold cs, prettify_coefficients. rewrite map_length, !app_length. rewrite LC. reflexivity.
        - exact PC.
        - intros F. assert (X : forallb (fun c => Qeq_bool c 0) cs = true); [|congruence]. apply forallb_forall. intros c C. rewrite Forall_forall in F. apply Qeq_bool_iff, F, C. }
      apply (satisfied_form st "=" f _ _ _ FD DE) in SAT. apply comparison_eq in SAT. exact SAT. }
  assert (STEP : (forall c, In c (f_cols d) -> ~ In c (removed ++ [f]) -> agrees d x ws c) -> (value (f_cols d) x f == linear (map (value (f_cols d) x) others) coef + intercept)%Q ->
            forall c, In c (f_cols d) -> ~ In c removed -> agrees d x ws c).
  { intros AG' EQF c C NR. destruct (eq_dec c f) as [->|D].
    - unfold agrees. rewrite EQF. rewrite <- (mean_ext _ ws _ _ EQR). rewrite mean_plus, mean_linear, (mean_one _ _ _ W). apply Qplus_comp; [|reflexivity]. apply linear_ext_l.
      assert (AO : forall o, In o others -> agrees d x ws o).
      { intros g G. apply AG'; [apply INC'; exact G|]. unfold others in G. apply filter_In in G. destruct G as (_ & G). apply andb_true_iff in G. destruct G as (G1 & G2). intros I. apply in_app_iff in I. destruct I as [I|[<-|[]]].
        - apply memb_In in I. rewrite I in G2. discriminate.
        - rewrite PreludeProofs.eqb_refl in G1. discriminate. }
      clear - AO. induction others as [|g os IH]; cbn; constructor; [apply AO; left; reflexivity|]. apply IH. intros y Y. apply AO. right. exact Y.
    - apply AG'; [exact C|]. intros I. apply in_app_iff in I. destruct I as [I|[I|[]]]; [contradiction|congruence]. }
  destruct (forallb (fun c => Qeq_bool c 0) cs) eqn:Z; pose proof (dependency_incl d features _ _ _ _ E) as (INC2 & _);
    (apply STEP; [exact (IH _ _ INF _ _ E SAT AG)|eapply MAIN; [|reflexivity]; apply INC2, in_app_iff; right; left; reflexivity]).
Qed.

(** ** One dimension *)
Lemma pair_back st t x xs : (1 # unit < 1)%Q -> denotes st t x -> t <> dummy_text -> Forall (clean unit) xs -> xs <> [] ->
  (forall s, In s (construct_pddl_inequality_scheme unit [[(-1)%Q]; [1%Q]] (construct_single_dimension_convex_hull unit xs) [t] "<=") -> satisfied st s) ->
  exists lo hi, In lo xs /\ In hi xs /\ (lo <= x)%Q /\ (x <= hi)%Q.
Proof.
  intros U D ND C NE SAT. destruct xs as [|y l]; [congruence|]. cbn [construct_single_dimension_convex_hull] in SAT. cbn [prettify_coefficients map] in SAT.
  destruct (q_min_spec l y) as (M1 & M2). destruct (q_max_spec l y) as (X1 & X2). rewrite Forall_forall in C.
  assert (IM : In (q_min y l) (y :: l)) by (destruct M2 as [->|M2]; [left; reflexivity|right; exact M2]).
  assert (IX : In (q_max y l) (y :: l)) by (destruct X2 as [->|X2]; [left; reflexivity|right; exact X2]).
  assert (B := scheme_back st [t] [x] _ _ "<=" ltac:(constructor; [exact D|constructor]) ltac:(intros [X|[]]; congruence) (pair_rows unit U t) SAT).
  pose proof (B _ _ (or_introl eq_refl)) as B1. pose proof (B _ _ (or_intror (or_introl eq_refl))) as B2. apply comparison_le in B1, B2. cbn [linear] in B1, B2.
  rewrite (prettify_clean unit _ (clean_opp unit _ (C _ IM))) in B1. rewrite (prettify_clean unit _ (C _ IX)) in B2.
  exists (q_min y l), (q_max y l). split; [exact IM|]. split; [exact IX|]. split; lra.
Qed.
(** ** Planes *)
Lemma hull_back st vars vals points a b : exact_hull unit hull -> complete_hull hull -> Forall2 (denotes st) vars vals -> ~ In dummy_text vars -> rectangular (length vars) points ->
  execute_convex_hull unit hull points = Ok (a, b) -> (forall t, In t (construct_pddl_inequality_scheme unit a b vars "<=") -> satisfied st t) -> in_hull points vals.
Proof.
  intros (SH & EX) CH D ND R E SAT. unfold execute_convex_hull in E. destruct (hull points) as [(a0 & b0)|] eqn:EH; [|discriminate]. injection E as <- <-.
  destruct (EX points a0 b0 EH) as (CA & CB). destruct (SH points a0 b0 EH) as (LE & BD). rewrite Forall_forall in CA. rewrite Forall_forall in CB.
  assert (CI : forall r, In r a0 -> exists beta, In (r, beta) (combine a0 b0)).
  { clear - LE. revert b0 LE. induction a0 as [|x a0 IH]; intros [|y b0] LE r I; try discriminate; [destruct I|]. cbn. destruct I as [->|I]; [eauto|]. destruct (IH b0) with (r := r) as (beta & B); [cbn in LE; lia|exact I|eauto]. }
  assert (LV : length vals = length vars) by (clear - D; induction D; cbn; congruence).
  apply (CH (length vars) points a0 b0 vals EH R LV). intros r beta I.
  pose proof (fun a b => scheme_back st vars vals a b "<=" D ND) as B.
  assert (RO : Forall (fun r => length r = length vars /\ ~ Forall (fun c => c == 0)%Q r /\ Forall (clean unit) r) (map (prettify_coefficients unit) a0)).
  { apply Forall_forall. intros q Q'. apply in_map_iff in Q'. destruct Q' as (r0 & <- & I0). destruct (CI r0 I0) as (beta0 & CB'). destruct (BD (length vars) r0 beta0 R CB') as (B1 & B2 & _).
    destruct (prettify_list_clean unit r0 (CA r0 I0)) as (PE & PC). split; [unfold prettify_coefficients; rewrite map_length; exact B1|]. split; [eapply not_zero_ext; eassumption|exact PC]. }
  assert (I2 : In (prettify_coefficients unit r, round unit (if Qltb (EPSILON unit) (Qabs beta) then beta else 0%Q)) (combine (map (prettify_coefficients unit) a0) (prettify_coefficients unit b0))).
  { clear - I. unfold prettify_coefficients at 3. revert b0 I. induction a0 as [|q a0 IH]; intros [|y b0] I; cbn in I; try destruct I as [E|I]; try destruct I; cbn.
    - injection E as -> ->. left. reflexivity.
    - right. apply IH. exact I. }
  specialize (B _ _ RO SAT _ _ I2). apply comparison_le in B.
  destruct (prettify_list_clean unit r (CA r (in_combine_l _ _ _ _ I))) as (PE & _). rewrite (linear_ext _ _ _ PE), (prettify_clean unit beta (CB beta (in_combine_r _ _ _ _ I))) in B. exact B.
Qed.

Lemma denotes_row st cols : forall row, length row = length cols -> row_state st cols row -> Forall2 (denotes st) cols row.
Proof.
  induction cols as [|c cols IH]; intros [|x rw] L H; try discriminate; constructor; [apply H; left; reflexivity|]. apply IH; [cbn in L; lia|]. intros c' v V. apply H. right. exact V.
Qed.
Lemma linear_sub a b r : length a = length b -> (linear (map (fun xy => (fst xy - snd xy)%Q) (combine a b)) r == linear a r - linear b r)%Q.
Proof. revert b r. induction a as [|x a IH]; intros [|y b] [|c r] L; try discriminate; cbn [combine map linear]; try ring. rewrite IH by (cbn in L; lia). cbn. ring. Qed.
Lemma nth_sub a b j : length a = length b -> (nth j (map (fun xy => (fst xy - snd xy)%Q) (combine a b)) 0 == nth j a 0 - nth j b 0)%Q.
Proof. revert b j. induction a as [|x a IH]; intros [|y b] [|j] L; try discriminate; cbn; try reflexivity. apply IH. cbn in L. lia. Qed.
(** The mean point. *)
Definition mean_point (n : nat) (rows : list (list Q)) (ws : list Q) : list Q := map (fun j => mean rows ws (fun r => nth j r 0%Q)) (seq 0 n).
Lemma linear_nth n : forall (row r : list Q), length row = n -> linear row r = linear (map (fun j => nth j row 0%Q) (seq 0 n)) r.
Proof.
  intros row r <-. f_equal. induction row as [|x row IH]; [reflexivity|]. cbn [length seq map nth]. f_equal. rewrite <- seq_shift, map_map. exact IH.
Qed.
Lemma linear_mean n rows ws r : rectangular n rows -> (linear (mean_point n rows ws) r == mean rows ws (fun row => linear row r))%Q.
Proof.
  intros R. unfold mean_point. rewrite <- (mean_linear rows ws (fun j row => nth j row 0%Q)). apply mean_ext. intros row I. rewrite (linear_nth n row r (R row I)). reflexivity.
Qed.
Lemma nth_mean n rows ws j : j < n -> nth j (mean_point n rows ws) 0%Q = mean rows ws (fun r => nth j r 0%Q).
Proof.
  intros J. unfold mean_point. rewrite (nth_indep _ 0%Q ((fun j => mean rows ws (fun r => nth j r 0%Q)) 0)) by (rewrite map_length, seq_length; exact J).
  rewrite (map_nth (fun j => mean rows ws (fun r => nth j r 0%Q))). rewrite seq_nth by exact J. reflexivity.
Qed.

Lemma hull_conditions_back st d x extra l : (1 # unit < 1)%Q -> exact_hull unit hull -> complete_hull hull -> exact_basis unit gram complement -> complete_basis gram complement ->
  table d -> clean_data unit d -> f_rows d <> [] -> length x = length (f_cols d) -> row_state st (f_cols d) x ->
  convex_hull_conditions unit hull gram complement d extra = Ok l -> (forall t, In t l -> satisfied st t) -> in_hull (f_rows d) x /\ (forall t, In t extra -> satisfied st t).
Proof.
  intros U EH CH EB CB T C NE L0 ST E SAT. unfold convex_hull_conditions in E. destruct T as (N & R & ND).
  pose proof (denotes_row st (f_cols d) x L0 ST) as DEN.
  set (n := length (f_cols d)) in *. set (shift := hd [] (f_rows d)) in *. set (shifted := map _ (f_rows d)) in *. set (basis := gram shifted) in *.
  destruct ((n <? length shifted) && (n <=? length basis)).
  - destruct (execute_convex_hull unit hull (f_rows d)) as [(a & b)|] eqn:EE; [|discriminate]. cbn [bind] in E. injection E as <-. split.
    + apply (hull_back st (f_cols d) x (f_rows d) a b EH CH DEN ND R EE). intros t H. apply SAT, in_app_iff. left. exact H.
    + intros t H. apply SAT, in_app_iff. right. exact H.
  - destruct (shift_row unit d (conj N (conj R ND)) C NE) as (LS & CSH). fold shift in LS, CSH. fold n in LS.
    set (delta := map (fun xy => (fst xy - snd xy)%Q) (combine x shift)).
    assert (RS : rectangular n shifted). { intros r H. unfold shifted in H. apply in_map_iff in H. destruct H as (r0 & <- & H). rewrite map_length, combine_length. rewrite (R r0 H). fold n. lia. }
    destruct (EB n shifted RS) as (B1 & B2). fold basis in B1, B2.
    assert (B1' : Forall (fun r => length r = length (f_cols d) /\ ~ Forall (fun c => c == 0)%Q r /\ Forall (clean unit) r) basis) by (eapply Forall_impl; [|exact B1]; cbn; tauto).
    destruct (projected_denotes unit st (f_cols d) x shift basis LS L0 ST CSH ND B1') as (PD & PN). fold delta in PD.
    set (projected := map (fun p => map (dot_row p) basis) shifted) in *. set (vars := construct_projected_variable_strings unit (f_cols d) shift basis) in *.
    assert (LD : length delta = n) by (unfold delta; rewrite map_length, combine_length; lia).
    assert (HULL : forall a b, (match basis with [] => Err NotSafeError | [_] => Ok ([[(-1)%Q]; [1%Q]], construct_single_dimension_convex_hull unit (map (fun p => hd 0%Q p) projected)) | _ => execute_convex_hull unit hull projected end) = Ok (a, b) ->
              (forall t, In t (construct_pddl_inequality_scheme unit a b vars "<=") -> satisfied st t) -> in_hull projected (map (linear delta) basis)).
    { intros a b EE SA.
      assert (LV : length vars = length basis) by (unfold vars, construct_projected_variable_strings; rewrite map_length; reflexivity).
      assert (RP' : rectangular (length vars) projected). { intros r H. unfold projected in H. apply in_map_iff in H. destruct H as (q & <- & _). rewrite map_length. congruence. }
      destruct basis as [|g [|g2 gs]] eqn:BB; [discriminate| |].
      - injection EE as <- <-. clearbody vars. destruct vars as [|t0 [|t1 ts]]; try discriminate LV. inversion PD as [|? ? ? ? D1 _]; subst.
        destruct (pair_back st t0 (linear delta g) (map (fun p => hd 0%Q p) projected) U D1) as (lo & hi & I1 & I2 & A1 & A2); [| | |exact SA|].
        + intros ->. apply PN. left. reflexivity.
        + apply Forall_forall. intros y Y. apply in_map_iff in Y. destruct Y as (p & <- & Y). unfold projected in Y. apply in_map_iff in Y. destruct Y as (q & <- & Y). cbn [map hd].
          inversion B1 as [|? ? (_ & _ & _ & B4) _]; subst. eapply clean_ext; [symmetry; apply dot_row_linear|]. apply B4. exact Y.
        + unfold projected, shifted. destruct (f_rows d); [congruence|discriminate].
        + destruct (between_weights _ lo hi (linear delta g) I1 I2 A1 A2) as (ws & W1 & W2 & W3 & W4). exists ws. rewrite map_length in W1. split; [exact W1|]. split; [exact W2|]. split; [exact W3|].
          intros j J. cbn [map length] in J. assert (j = 0) as -> by lia. cbn [map nth]. rewrite <- W4. apply linear_ext_l.
          assert (HD : map (fun p => hd 0%Q p) projected = map (fun r => nth 0 r 0%Q) projected) by (apply map_ext; intros [|? ?]; reflexivity). rewrite HD. apply Qs_refl.
      - apply (hull_back st vars (map (linear delta) (g :: g2 :: gs)) projected a b EH CH PD PN RP' EE SA). }
    destruct (match basis with [] => Err NotSafeError | [_] => _ | _ => _ end) as [(a & b)|] eqn:EE; [|discriminate]. cbn [bind] in E. specialize (HULL a b eq_refl).
    assert (NZ : Forall (fun e => ~ Forall (fun c => c == 0)%Q e) (complement n basis)) by (eapply Forall_impl; [|exact B2]; cbn; tauto).
    destruct (divide_ok (complement n basis) NZ) as (span' & ED' & SPAN).
    destruct (divide_span_by_common_denominator (complement n basis)) as [span|] eqn:ED; [|discriminate]. injection ED' as <-. cbn [bind] in E. injection E as <-.
    split; [|intros t H; apply SAT; apply in_app_iff; right; apply in_app_iff; left; exact H].
    specialize (HULL ltac:(intros t H; apply SAT, in_app_iff; left; exact H)). destruct HULL as (ws & W1 & W2 & W3 & W4).
    destruct (projected_denotes unit st (f_cols d) x shift (identity_matrix n) LS L0 ST CSH ND (identity_rows unit n U)) as (ID1 & ID2). fold delta in ID1.
    assert (CE : forall r, In r (complement n basis) -> (linear delta r == 0)%Q).
    { assert (SP : Forall (fun r => length r = n /\ ~ Forall (fun c => c == 0)%Q r /\ Forall (clean unit) r) span).
      { clear - B2 ED. revert span ED. induction B2 as [|e es (L & NZ & CD & OR) B2 IH]; intros span ED; [injection ED as <-; constructor|]. unfold divide_span_by_common_denominator in *. cbn [map_res] in ED.
        destruct (filter (fun c => negb (Qeq_bool c 0)) e) as [|c cs] eqn:EF; [discriminate|]. cbn [bind] in ED. destruct (map_res _ es) as [rest|] eqn:ER; [|discriminate]. injection ED as <-.
        assert (IC : In c e /\ ~ (c == 0)%Q). { assert (X : In c (filter (fun c => negb (Qeq_bool c 0)) e)) by (rewrite EF; left; reflexivity). apply filter_In in X. destruct X as (X1 & X2). split; [exact X1|]. apply Qeq_bool_neq. apply negb_true_iff. exact X2. }
        destruct IC as (IC & CN). constructor; [|apply IH; reflexivity]. split; [rewrite map_length; exact L|]. split.
        - intros F. rewrite Forall_forall in F. assert (X : (c / c == 0)%Q) by (apply F; apply in_map_iff; eauto). apply CN. assert (Y : (c / c == 1)%Q) by (field; exact CN). rewrite Y in X. discriminate X.
        - apply Forall_forall. intros y X. apply in_map_iff in X. destruct X as (z & <- & Y). apply CD; assumption. }
      assert (LI : length (construct_projected_variable_strings unit (f_cols d) shift (identity_matrix n)) = n).
      { unfold construct_projected_variable_strings. rewrite map_length. unfold identity_matrix. rewrite map_length, seq_length. reflexivity. }
      assert (BK := scheme_back st _ _ span (map (fun _ => 0%Q) span) "=" ID1 ID2 ltac:(rewrite LI; exact SP) ltac:(intros t H; apply SAT; apply in_app_iff; right; apply in_app_iff; right; exact H)).
      intros r I. assert (X : exists r', In r' span /\ forall y, (dot r y == 0)%Q <-> (dot r' y == 0)%Q).
      { clear - SPAN I. induction SPAN as [|e e' es es' H SPAN IH]; [destruct I|]. destruct I as [->|I]; [exists e'; split; [left; reflexivity|exact H]|]. destruct (IH I) as (r' & I' & H'). exists r'. split; [right; exact I'|exact H']. }
      destruct X as (r' & I' & H'). specialize (H' delta). unfold dot in H'. apply H'.
      assert (IZ : In (r', 0%Q) (combine span (map (fun _ => 0%Q) span))). { clear - I'. induction span as [|e es IH]; [destruct I'|]. cbn. destruct I' as [->|I]; [left; reflexivity|right; apply IH; exact I]. }
      specialize (BK r' 0%Q IZ). apply comparison_eq in BK. rewrite <- BK. symmetry. apply linear_ext_l. rewrite <- LD. apply linear_identity. }
    (** the difference between the point and the mean of the points vanishes *)
    set (m := mean_point n shifted ws). set (y := map (fun xy => (fst xy - snd xy)%Q) (combine delta m)).
    assert (LM : length m = n) by (unfold m, mean_point; rewrite map_length, seq_length; reflexivity).
    assert (Y0 : Forall (fun c => c == 0)%Q y).
    { apply (CB n shifted y RS).
      - unfold y. rewrite map_length, combine_length. lia.
      - intros r I. fold basis in I. unfold y. rewrite linear_sub by congruence. unfold m. rewrite (linear_mean n shifted ws r RS). apply (In_nth _ _ []) in I. destruct I as (j & J & EJ).
        assert (J' : j < length (map (linear delta) basis)) by (rewrite map_length; exact J). specialize (W4 j J').
        rewrite (nth_indep _ 0%Q (linear delta [])) in W4 by exact J'. rewrite map_nth, EJ in W4. rewrite W4. unfold projected. rewrite map_map. unfold mean.
        assert (X : (linear (map (fun p => nth j (map (dot_row p) basis) 0%Q) shifted) ws == linear (map (fun row => linear row r) shifted) ws)%Q); [|rewrite X; ring].
        apply (mean_ext shifted ws (fun p => nth j (map (dot_row p) basis) 0%Q) (fun row => linear row r)). intros p P.
        rewrite (nth_indep _ 0%Q (dot_row p [])) by (rewrite map_length; exact J). rewrite map_nth, EJ. apply dot_row_linear.
      - intros r I. fold basis in I. unfold y. rewrite linear_sub by congruence. unfold m. rewrite (linear_mean n shifted ws r RS). rewrite (CE r I).
        assert (X : (mean shifted ws (fun row => linear row r) == 0)%Q); [|rewrite X; ring]. rewrite <- (mean_zero shifted ws). apply mean_ext. intros p P. rewrite Forall_forall in B2. apply (B2 r I). exact P. }
    assert (LSH : length (f_rows d) = length shifted) by (unfold shifted; rewrite map_length; reflexivity).
    assert (LP : length projected = length shifted) by (unfold projected; rewrite map_length; reflexivity).
    assert (W : weights (f_rows d) ws) by (split; [congruence|split; [exact W2|exact W3]]).
    exists ws. split; [congruence|]. split; [exact W2|]. split; [exact W3|]. intros j J. rewrite L0 in J. fold n in J.
    assert (YJ : (nth j y 0 == 0)%Q). { rewrite Forall_forall in Y0. apply Y0. apply nth_In. unfold y. rewrite map_length, combine_length. lia. }
    unfold y in YJ. rewrite nth_sub in YJ by congruence. unfold delta in YJ at 1. rewrite nth_sub in YJ by (fold n in L0; congruence). unfold m in YJ. rewrite nth_mean in YJ by exact J.
    unfold shifted in YJ. rewrite mean_map in YJ.
    assert (X : (mean (f_rows d) ws (fun r => nth j (map (fun xy => (fst xy - snd xy)%Q) (combine r shift)) 0) == mean (f_rows d) ws (fun r => nth j r 0) - nth j shift 0)%Q).
    { rewrite <- (mean_one (f_rows d) ws (nth j shift 0%Q) W) at 1. rewrite <- mean_minus. apply mean_ext. intros r I. apply nth_sub. rewrite (R r I). symmetry. exact LS. }
    rewrite X in YJ. unfold mean in YJ. lra.
Qed.

(** ** Safety *)
Lemma remove_shape d r extra : remove_complex_linear_dependencies unit fit d = (r, extra) -> forall d', r = Some d' -> d' = d \/ exists keep, d' = drop_columns d keep.
Proof.
  intros E d' ->. unfold remove_complex_linear_dependencies in E. destruct ((length (f_rows d) =? 0) || (length (f_cols d) =? 1)); [injection E as <- <-; auto|].
  destruct (length (f_cols d) =? _); [discriminate|]. destruct (dependency_loop _ _ _ _ _ _) as (removed & conditions). injection E as <- <-. right. eexists. reflexivity.
Qed.
Lemma remove_back st d x : exact_fit unit fit -> table d -> length x = length (f_cols d) -> row_state st (f_cols d) x -> f_rows d <> [] ->
  forall r extra, remove_complex_linear_dependencies unit fit d = (r, extra) -> (forall t, In t extra -> satisfied st t) ->
  (r = None -> in_hull (f_rows d) x) /\
  (forall d', r = Some d' -> in_hull (f_rows d') (restrict (f_cols d) (f_cols d') x) -> in_hull (f_rows d) x).
Proof.
  intros FIT T L0 ST NE r extra E SAT. unfold remove_complex_linear_dependencies in E. destruct ((length (f_rows d) =? 0) || (length (f_cols d) =? 1)) eqn:Z.
  { injection E as <- <-. split; [discriminate|]. intros d' X. injection X as <-. rewrite row_self; [auto|apply T|exact L0]. }
  set (constants := flat_map _ (f_cols d)) in *.
  assert (SUB : forall c v, In (c, v) constants -> In c (f_cols d) /\ constant_value (column d c) = Some v).
  { intros c v H. unfold constants in H. apply in_flat_map in H. destruct H as (c' & C & H). destruct (constant_value (column d c')) as [v'|] eqn:EC; [|destruct H]. destruct H as [H|[]]. injection H as -> ->. auto. }
  assert (AC : forall conditions, (forall t, In t conditions -> satisfied st t) -> incl (map (fun cv => form "=" (fst cv) [Num (snd cv)]) constants) conditions ->
            forall ws, weights (f_rows d) ws -> forall c, In c (map fst constants) -> agrees d x ws c).
  { intros conditions SA INC ws W c I. apply in_map_iff in I. destruct I as ((c' & v) & <- & I). cbn [fst]. destruct (SUB c' v I) as (C & EV).
    assert (X : satisfied st (form "=" c' [Num v])) by (apply SA, INC, in_map_iff; exists (c', v); split; [reflexivity|exact I]).
    apply (satisfied_form st "=" c' [Num v] (value (f_cols d) x c') v (value_state st _ x c' L0 ST C) (denotes_num _ _)) in X. apply comparison_eq in X.
    unfold agrees. rewrite X. rewrite <- (mean_one _ _ v W) at 1. apply mean_ext. intros row I'. symmetry. eapply constant_spec; [exact EV|]. apply column_in. exact I'. }
  destruct (length (f_cols d) =? length constants) eqn:LEN.
  - injection E as <- <-. split; [intros _|discriminate]. apply Nat.eqb_eq in LEN. apply hull_columns; [exact T|exact L0|].
    destruct (f_rows d) as [|r0 rows] eqn:ER; [congruence|]. rewrite <- ER in *.
    destruct (one_weight (map (fun _ => 0%Q) (f_rows d)) 0%Q) as (ws & W1 & W2 & W3 & _); [rewrite ER; left; reflexivity|]. rewrite map_length in W1. exists ws. split; [split; [exact W1|split; [exact W2|exact W3]]|].
    intros c C. apply (AC _ SAT (incl_refl _) ws); [split; [exact W1|split; [exact W2|exact W3]]|].
    (* every column is constant *)
    assert (ALL : forall cols, length cols <= length (flat_map (fun c => match constant_value (column d c) with Some v => [(c, v)] | None => [] end) cols) -> forall c, In c cols -> In c (map fst (flat_map (fun c => match constant_value (column d c) with Some v => [(c, v)] | None => [] end) cols))).
    { assert (LE : forall cols, length (flat_map (fun c => match constant_value (column d c) with Some v => [(c, v)] | None => [] end) cols) <= length cols).
      { induction cols as [|k cols IH]; [reflexivity|]. cbn. rewrite app_length. destruct (constant_value (column d k)); cbn; lia. }
      induction cols as [|k cols IH]; intros LL c' I; [destruct I|]. cbn in LL |- *. rewrite app_length in LL. specialize (LE cols). destruct (constant_value (column d k)) as [v|]; cbn in LL |- *; [|lia].
      destruct I as [->|I]; [left; reflexivity|right; apply IH; [lia|exact I]]. }
    apply ALL; [fold constants; lia|exact C].
  - destruct (dependency_loop _ _ _ _ _ _) as (removed & conditions) eqn:EL. injection E as <- <-. split; [discriminate|]. intros d' X. injection X as <-.
    intros H. apply hull_columns; [exact T|exact L0|].
    set (keep := fun c => negb (memb c removed)) in *. apply hull_points_columns in H; [|apply drop_table; exact T|unfold restrict; rewrite map_length; reflexivity].
    destruct H as (ws & W & AG). assert (W' : weights (f_rows d) ws) by (destruct W as (W1 & W2); split; [cbn [drop_columns f_rows] in W1; rewrite map_length in W1; exact W1|exact W2]).
    exists ws. split; [exact W'|].
    pose proof (dependency_incl d _ _ _ _ _ EL) as (IC & _).
    assert (BACK : forall c, In c (f_cols d) -> ~ In c (map fst constants) -> agrees d x ws c).
    { apply (dependency_back st d x ws FIT T L0 ST W' _ _ _ ltac:(intros y Y; apply filter_In in Y; apply Y) _ _ EL SAT).
      intros c C NR. assert (K : In c (f_cols (drop_columns d keep))) by (cbn; apply filter_In; split; [exact C|unfold keep; rewrite (proj2 (memb_nIn c removed) NR); reflexivity]).
      specialize (AG c K). unfold agrees in *. cbn [drop_columns f_cols f_rows] in AG. rewrite mean_map in AG. cbn [drop_columns f_cols] in K.
      assert (V : forall row, value (filter keep (f_cols d)) (restrict (f_cols d) (filter keep (f_cols d)) row) c = value (f_cols d) row c).
      { intros row. unfold value at 1. rewrite get_col_restrict by exact K. reflexivity. }
      rewrite V in AG. rewrite AG. apply mean_ext. intros row I. rewrite V. reflexivity. }
    intros c C. destruct (memb c (map fst constants)) eqn:M; [apply memb_In in M; apply (AC conditions SAT IC ws W' c M)|apply memb_nIn in M; apply BACK; assumption].
Qed.
Lemma chosen_restrict cols fs row : NoDup cols -> length row = length cols -> map snd (filter (fun cv => memb (fst cv) fs) (combine cols row)) = restrict cols (filter (fun c => memb c fs) cols) row.
Proof.
  intros N. unfold restrict, get_col. revert row. induction N as [|c cols NI N IH]; intros [|v row] L; try discriminate; [reflexivity|]. cbn [combine filter fst]. 
  assert (X : map snd (filter (fun cv => memb (fst cv) fs) (combine cols row)) = map (fun c0 => match dict_get ((c, v) :: combine cols row) c0 with Some v0 => v0 | None => 0%Q end) (filter (fun c0 => memb c0 fs) cols)).
  { rewrite IH by (cbn in L; lia). apply map_ext_in. intros a A. cbn [dict_get]. destruct (eq_dec a c) as [->|]; [apply filter_In in A; destruct A; contradiction|reflexivity]. }
  destruct (memb c fs) eqn:M; cbn [map snd]; [|exact X]. f_equal; [|exact X]. cbn [dict_get]. destruct (eq_dec c c) as [_|]; [reflexivity|congruence].
Qed.
Theorem satisfied_in_hull data relevant conditions st x : (1 # unit < 1)%Q -> exact_fit unit fit -> exact_hull unit hull -> complete_hull hull -> exact_basis unit gram complement -> complete_basis gram complement ->
  table data -> clean_data unit data -> f_rows data <> [] -> length x = length (f_cols data) -> row_state st (f_cols data) x ->
  construct data relevant = Ok conditions -> all_satisfied st conditions -> in_hull (map (chosen relevant (f_cols data)) (f_rows data)) (chosen relevant (f_cols data) x).
Proof.
  intros U FIT EH CH EB CB T C NE L ST E SAT. unfold construct_safe_linear_inequalities in E.
  set (d := match relevant with Some fs => drop_columns data (fun c => memb c fs) | None => data end) in *.
  set (y := chosen relevant (f_cols data) x).
  assert (G : table d /\ clean_data unit d /\ f_rows d <> [] /\ length y = length (f_cols d) /\ row_state st (f_cols d) y /\ map (chosen relevant (f_cols data)) (f_rows data) = f_rows d /\
             (forall fs c, relevant = Some fs -> In c (f_cols d) -> In c fs)).
  { unfold d, y. destruct relevant as [fs|]; cbn [chosen]; [|repeat split; try assumption; try apply T; [apply map_id|discriminate]].
    destruct T as (N & R & DD). rewrite chosen_restrict by assumption.
    split; [apply drop_table; split; [exact N|split; [exact R|exact DD]]|]. split; [apply drop_clean; [split; [exact N|split; [exact R|exact DD]]|exact C]|]. split; [cbn; destruct (f_rows data); [congruence|discriminate]|].
    split; [unfold restrict; rewrite map_length; reflexivity|]. split; [apply restrict_state; [exact L|exact ST|intros z Z; apply filter_In in Z; apply Z]|].
    split; [cbn [drop_columns f_rows]; apply map_ext_in; intros r I; apply chosen_restrict; [exact N|apply R; exact I]|].
    intros gs c X I. injection X as <-. cbn in I. apply filter_In in I. apply memb_In, I. }
  clearbody d y. clear T C NE L ST x. destruct G as (T & C & NE & L & ST & EQ & RELC). rewrite EQ. clear EQ.
  destruct ((match relevant with Some [_] => true | _ => false end) || (length (f_cols d) =? 1)) eqn:ONE.
  - destruct (match relevant with Some fs => fs | None => f_cols d end) as [|f fs] eqn:EF; [discriminate|]. destruct (memb f (f_cols d)) eqn:M; [|discriminate]. injection E as <-. cbn [all_satisfied] in SAT.
    apply memb_In in M. assert (D : denotes st f (value (f_cols d) y f)) by (apply value_state; [exact L|exact ST|exact M]).
    assert (CN : column d f <> []) by (unfold column; destruct (f_rows d); [congruence|discriminate]).
    apply (single_spec st f _ (column d f) D CN) in SAT. destruct SAT as ((lo & I1 & A1) & (hi & I2 & A2)).
    destruct (between_weights (column d f) lo hi _ I1 I2 A1 A2) as (ws & W1 & W2 & W3 & W4). unfold column in W1. rewrite map_length in W1.
    apply hull_columns; [exact T|exact L|]. exists ws. split; [split; [exact W1|split; [exact W2|exact W3]]|]. intros c I.
    assert (c = f) as ->; [|unfold agrees; symmetry; exact W4].
    apply orb_true_iff in ONE. destruct ONE as [ONE|ONE].
    + destruct relevant as [[|g [|g2 gs]]|]; try discriminate. injection EF as E1 E2. destruct (RELC [g] c eq_refl I) as [E3|[]]. congruence.
    + apply Nat.eqb_eq in ONE. destruct (f_cols d) as [|k [|k2 ks]]; try discriminate. destruct I as [<-|[]]. destruct M as [<-|[]]. reflexivity.
  - destruct (remove_complex_linear_dependencies unit fit d) as (r & extra) eqn:ER.
    assert (CO : forall l, all_satisfied st (conditions_or_none l) -> forall t, In t l -> satisfied st t) by (intros [|a l] H; [intros t []|exact H]).
    destruct r as [filtered|].
    2: { injection E as <-. destruct (remove_back st d y FIT T L ST NE None extra ER (CO extra SAT)) as (B & _). apply B. reflexivity. }
    assert (G : table filtered /\ clean_data unit filtered /\ f_rows filtered <> [] /\ incl (f_cols filtered) (f_cols d)).
    { destruct (remove_shape d _ _ ER filtered eq_refl) as [->|(keep & ->)]; [repeat split; try assumption; try apply T; apply incl_refl|]. split; [apply drop_table; exact T|]. split; [apply drop_clean; assumption|].
      split; [cbn; destruct (f_rows d); [congruence|discriminate]|]. intros z Z. apply filter_In in Z. apply Z. }
    destruct G as (TF & CF & NF & INF). set (z := restrict (f_cols d) (f_cols filtered) y).
    assert (LZ : length z = length (f_cols filtered)) by (unfold z, restrict; rewrite map_length; reflexivity).
    assert (SZ : row_state st (f_cols filtered) z) by (apply restrict_state; [exact L|exact ST|exact INF]).
    destruct (length (f_rows filtered) =? 0) eqn:L0; [exfalso; apply Nat.eqb_eq in L0; destruct (f_rows filtered); [congruence|discriminate]|].
    assert (FIN : in_hull (f_rows filtered) z -> (forall t, In t extra -> satisfied st t) -> in_hull (f_rows d) y).
    { intros H SA. destruct (remove_back st d y FIT T L ST NE _ _ ER SA) as (_ & B). apply (B filtered eq_refl H). }
    destruct (f_cols filtered) as [|f [|f2 fs]] eqn:EC.
    + destruct (convex_hull_conditions _ _ _ _ filtered extra) as [l|] eqn:EL; [|discriminate]. cbn [bind] in E. injection E as <-.
      destruct (hull_conditions_back st filtered z extra l U EH CH EB CB TF CF NF) as (H1 & H2); [rewrite EC; exact LZ|rewrite EC; exact SZ|exact EL|apply CO; exact SAT|]. apply FIN; assumption.
    + injection E as <-. pose proof (CO _ SAT) as SA. apply FIN; [|intros t H; apply SA, in_app_iff; right; exact H].
      assert (IF : In f (f_cols filtered)) by (rewrite EC; left; reflexivity).
      assert (D : denotes st f (value (f_cols filtered) z f)) by (apply value_state; [rewrite EC; exact LZ|rewrite EC; exact SZ|exact IF]).
      destruct (pair_back st f _ (column filtered f) U D) as (lo & hi & I1 & I2 & A1 & A2).
      * intros ->. apply TF. exact IF.
      * apply column_clean; [exact TF|exact CF|exact IF].
      * unfold column. destruct (f_rows filtered); [congruence|discriminate].
      * intros t H. apply SA, in_app_iff. left. exact H.
      * destruct (between_weights (column filtered f) lo hi _ I1 I2 A1 A2) as (ws & W1 & W2 & W3 & W4). unfold column in W1. rewrite map_length in W1.
        apply hull_columns; [exact TF|rewrite EC; exact LZ|]. exists ws. split; [split; [exact W1|split; [exact W2|exact W3]]|]. intros c I. rewrite EC in I. destruct I as [<-|[]]. unfold agrees. symmetry. exact W4.
    + destruct (convex_hull_conditions _ _ _ _ filtered extra) as [l|] eqn:EL; [|discriminate]. cbn [bind] in E. injection E as <-.
      destruct (hull_conditions_back st filtered z extra l U EH CH EB CB TF CF NF) as (H1 & H2); [rewrite EC; exact LZ|rewrite EC; exact SZ|exact EL|apply CO; exact SAT|]. apply FIN; assumption.
Qed.
End S.
