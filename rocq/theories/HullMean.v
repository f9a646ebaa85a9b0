(** * Weighted means of the observations satisfy the learned conditions *)
From Verif Require Import HullModel HullSpec NumModel NumSpec NumProofs MonoProofs HullProofs HullObserved HullSafe Prelude PreludeProofs.
From Coq Require Import Lqa.
Open Scope string_scope. Open Scope list_scope. Open Scope nat_scope.

Lemma mean_le rows : forall ws g h, Forall (Qle 0) ws -> (forall r, In r rows -> (g r <= h r)%Q) -> (mean rows ws g <= mean rows ws h)%Q.
Proof.
  unfold mean. induction rows as [|r rows IH]; intros [|w ws] g h N H; cbn; try (apply Qle_refl). inversion N as [|? ? W N']; subst.
  pose proof (IH ws g h N' (fun s S0 => H s (or_intror S0))). pose proof (H r (or_introl eq_refl)) as X. assert (0 <= w * (h r - g r))%Q by (apply Qmult_le_0_compat; lra). lra.
Qed.
Lemma hull_point n points ws vals : rectangular n points -> length vals = n -> (forall j, j < length vals -> (nth j vals 0 == linear (map (fun r => nth j r 0) points) ws)%Q) ->
  forall r, (linear vals r == mean points ws (fun row => linear row r))%Q.
Proof.
  intros R L H r. rewrite (linear_nth n vals r L), <- (linear_mean n points ws r R). apply linear_ext_l. unfold mean_point. assert (X : forall l, incl l (seq 0 n) -> Forall2 Qeq (map (fun j => nth j vals 0%Q) l) (map (fun j => mean points ws (fun row => nth j row 0%Q)) l)).
  { induction l as [|j l IH]; intros I; [constructor|]. cbn. constructor; [|apply IH; intros y Y; apply I; right; exact Y]. rewrite H; [reflexivity|]. specialize (I j (or_introl eq_refl)). apply in_seq in I. lia. }
  apply X. apply incl_refl.
Qed.
Lemma in_hull_le n points vals r beta : rectangular n points -> length vals = n -> in_hull points vals -> (forall p, In p points -> (linear p r <= beta)%Q) -> (linear vals r <= beta)%Q.
Proof.
  intros R L (ws & W1 & W2 & W3 & H) B. rewrite (hull_point n points ws vals R L H r). rewrite <- (mean_one points ws beta (conj W1 (conj W2 W3))). apply mean_le; [exact W2|exact B].
Qed.
Lemma in_hull_eq n points vals r beta : rectangular n points -> length vals = n -> in_hull points vals -> (forall p, In p points -> (linear p r == beta)%Q) -> (linear vals r == beta)%Q.
Proof.
  intros R L (ws & W1 & W2 & W3 & H) B. rewrite (hull_point n points ws vals R L H r). rewrite <- (mean_one points ws beta (conj W1 (conj W2 W3))). apply mean_ext. exact B.
Qed.
Lemma in_hull_some points vals : in_hull points vals -> points <> [].
Proof. intros (ws & W1 & _ & W3 & _) ->. destruct ws; [discriminate W3|discriminate W1]. Qed.
(** A mean lies between two of the values. *)
Lemma mean_between points g ws : weights points ws -> (exists p, In p points /\ (g p <= mean points ws g)%Q) /\ (exists p, In p points /\ (mean points ws g <= g p)%Q).
Proof.
  intros W. assert (NE : points <> []). { intros ->. destruct W as (W1 & _ & W3). destruct ws; [discriminate W3|discriminate W1]. }
  destruct points as [|p0 l]; [congruence|]. split.
  - destruct (q_min_spec (map g l) (g p0)) as (M1 & M2). assert (LE : (q_min (g p0) (map g l) <= mean (p0 :: l) ws g)%Q).
    { rewrite <- (mean_one (p0 :: l) ws (q_min (g p0) (map g l)) W). apply mean_le; [apply W|]. intros r [<-|I]; apply M1; [left; reflexivity|right; apply in_map; exact I]. }
    destruct M2 as [E|I]; [exists p0; split; [left; reflexivity|rewrite E in LE; exact LE]|]. apply in_map_iff in I. destruct I as (p & E & I). exists p. split; [right; exact I|rewrite E; exact LE].
  - destruct (q_max_spec (map g l) (g p0)) as (M1 & M2). assert (LE : (mean (p0 :: l) ws g <= q_max (g p0) (map g l))%Q).
    { rewrite <- (mean_one (p0 :: l) ws (q_max (g p0) (map g l)) W). apply mean_le; [apply W|]. intros r [<-|I]; apply M1; [left; reflexivity|right; apply in_map; exact I]. }
    destruct M2 as [E|I]; [exists p0; split; [left; reflexivity|rewrite E in LE; exact LE]|]. apply in_map_iff in I. destruct I as (p & E & I). exists p. split; [right; exact I|rewrite E; exact LE].
Qed.

Section M.
Variable unit : positive.
Variable fit : list (list Q) -> list Q -> list Q * Q * bool.
Variable hull : list (list Q) -> option (list (list Q) * list Q).
Variable gram : list (list Q) -> list (list Q).
Variable complement : nat -> list (list Q) -> list (list Q).
Notation construct := (construct_safe_linear_inequalities unit fit hull gram complement).

Lemma dependency_mean st d x ws : exact_fit unit fit -> table d -> length x = length (f_cols d) -> row_state st (f_cols d) x -> weights (f_rows d) ws -> (forall c, In c (f_cols d) -> agrees d x ws c) ->
  forall features removed conditions, incl features (f_cols d) -> (forall t, In t conditions -> satisfied st t) ->
  forall removed' conditions', dependency_loop unit fit d features removed conditions = (removed', conditions') -> forall t, In t conditions' -> satisfied st t.
Proof.
  intros FIT T L0 ST W A. induction features as [|f features IH]; intros removed conditions INC SAT removed' conditions' E; cbn [dependency_loop] in E; [injection E as <- <-; exact SAT|].
  set (others := filter (fun c => negb (Prelude.eqb c f) && negb (memb c removed)) (f_cols d)) in *. destruct others as [|o os] eqn:EO; [injection E as <- <-; exact SAT|]. rewrite <- EO in E.
  destruct (fit (map (restrict (f_cols d) others) (f_rows d)) (column d f)) as ((coef & intercept) & one) eqn:EF. destruct one; cbn [negb] in E.
  2: { apply (IH removed conditions) with (removed' := removed'); [intros y Y; apply INC; right; exact Y|exact SAT|exact E]. }
  destruct (FIT (length others) (map (restrict (f_cols d) others) (f_rows d)) (column d f) coef intercept) as (LC & CC & EQ); [|unfold column; rewrite !map_length; reflexivity|exact EF|].
  { intros r R. apply in_map_iff in R. destruct R as (r0 & <- & R). unfold restrict. rewrite map_length. reflexivity. }
  assert (INC' : incl others (f_cols d)) by (intros y Y; subst others; apply filter_In in Y; apply Y).
  assert (EQR : (linear (restrict (f_cols d) others x) coef + intercept == value (f_cols d) x f)%Q).
  { pose proof (A f (INC f (or_introl eq_refl))) as AF. unfold agrees in AF. rewrite AF. rewrite <- (mean_ext (f_rows d) ws (fun r => (linear (restrict (f_cols d) others r) coef + intercept)%Q)).
    - rewrite mean_plus, (mean_one _ _ _ W). unfold restrict. pose proof (mean_linear (f_rows d) ws (fun k r => value (f_cols d) r k) others coef) as ML. unfold value in ML. rewrite ML.
      assert (X : Forall2 Qeq (map (fun c => match get_col (f_cols d) x c with Some v => v | None => 0%Q end) others) (map (fun k => mean (f_rows d) ws (fun r => match get_col (f_cols d) r k with Some v => v | None => 0%Q end)) others)).
      { clear - A INC'. induction others as [|o os IH]; [constructor|]. cbn. constructor; [exact (A o (INC' o (or_introl eq_refl)))|]. apply IH. intros y Y. apply INC'. right. exact Y. }
      rewrite (linear_ext_l _ _ coef X). reflexivity.
    - intros r R. apply EQ. unfold column. clear - R. induction (f_rows d) as [|r0 rows IH]; [destruct R|]. cbn. destruct R as [->|R]; [left; reflexivity|right; apply IH; exact R]. }
  destruct (prettify_list_clean unit _ CC) as (PE & PC). set (cs := prettify_coefficients unit (coef ++ [intercept])) in *.
  set (val := fun c => if Prelude.eqb c dummy_text then 1%Q else value (f_cols d) x c).
  assert (VD : val dummy_text = 1%Q) by (unfold val; rewrite PreludeProofs.eqb_refl; reflexivity).
  assert (VO : forall c, In c (f_cols d) -> val c = value (f_cols d) x c). { intros c C. unfold val. rewrite (proj2 (PreludeProofs.eqb_neq c dummy_text)); [reflexivity|]. intros ->. apply T. exact C. }
  assert (SUM : (linear (map val (others ++ [dummy_text])) cs == value (f_cols d) x f)%Q).
  { rewrite (linear_ext _ _ _ PE). rewrite map_app. cbn [map]. rewrite linear_snoc by (rewrite map_length; congruence). rewrite VD, <- EQR. unfold restrict.
    assert (M : map val others = map (value (f_cols d) x) others) by (apply map_ext_in; intros c C; apply VO, INC', C). rewrite M. unfold value. ring. }
  assert (FD : denotes st f (value (f_cols d) x f)) by (apply value_state; [exact L0|exact ST|apply INC; left; reflexivity]).
  destruct (forallb (fun c => Qeq_bool c 0) cs) eqn:Z.
  - refine (IH _ _ _ _ _ _ E); [intros y Y; apply INC; right; exact Y|]. intros t H. apply in_app_iff in H. destruct H as [H|[<-|[]]]; [apply SAT; exact H|].
    apply (satisfied_form st "=" f [Num 0] _ _ FD (denotes_num _ _)). apply comparison_eq. rewrite <- SUM.
    assert (ZZ : forall xs l, forallb (fun c => Qeq_bool c 0) l = true -> (linear xs l == 0)%Q).
    { clear. induction xs as [|x xs IH]; intros [|c l] H; cbn; try reflexivity. cbn in H. apply andb_true_iff in H. destruct H as (H1 & H2). apply Qeq_bool_iff in H1. rewrite H1, (IH l H2). ring. }
    apply ZZ. exact Z.
  - refine (IH _ _ _ _ _ _ E); [intros y Y; apply INC; right; exact Y|]. intros t H. apply in_app_iff in H. destruct H as [H|[<-|[]]]; [apply SAT; exact H|].
    apply (satisfied_form st "=" f _ (value (f_cols d) x f) (value (f_cols d) x f) FD).
    + eapply denotes_ext; [exact SUM|]. apply exact_string.
      * intros g G. apply in_app_iff in G. destruct G as [G|[<-|[]]]; [|left; split; [reflexivity|rewrite VD; reflexivity]].
        rewrite (VO g (INC' g G)). right. split; [intros ->; apply T, INC', G|]. apply value_state; [exact L0|exact ST|apply INC'; exact G].
      * unfold cs, prettify_coefficients. rewrite map_length, !app_length. rewrite LC. reflexivity.
      * exact PC.
      * intros F. assert (X : forallb (fun c => Qeq_bool c 0) cs = true); [|congruence]. apply forallb_forall. intros c C. rewrite Forall_forall in F. apply Qeq_bool_iff, F, C.
    + apply comparison_eq. reflexivity.
Qed.
Lemma mean_constant d x ws c v : weights (f_rows d) ws -> agrees d x ws c -> constant_value (column d c) = Some v -> (value (f_cols d) x c == v)%Q.
Proof.
  intros W A E. unfold agrees in A. rewrite A. rewrite <- (mean_one (f_rows d) ws v W). apply mean_ext. intros r R. eapply constant_spec; [exact E|]. apply column_in. exact R.
Qed.
Lemma remove_mean st d x : exact_fit unit fit -> table d -> length x = length (f_cols d) -> row_state st (f_cols d) x -> in_hull (f_rows d) x ->
  forall r extra, remove_complex_linear_dependencies unit fit d = (r, extra) -> forall t, In t extra -> satisfied st t.
Proof.
  intros FIT T L ST H r extra E. destruct (hull_points_columns d x T L H) as (ws & W & A). unfold remove_complex_linear_dependencies in E. destruct ((length (f_rows d) =? 0) || (length (f_cols d) =? 1)).
  { injection E as <- <-. intros t []. }
  set (constants := flat_map _ (f_cols d)) in *.
  assert (CS : forall t, In t (map (fun cv => form "=" (fst cv) [Num (snd cv)]) constants) -> satisfied st t).
  { intros t I. apply in_map_iff in I. destruct I as ((c & v) & <- & I). cbn [fst snd]. unfold constants in I. apply in_flat_map in I. destruct I as (c' & C & I).
    destruct (constant_value (column d c')) as [v'|] eqn:EC; [|destruct I]. destruct I as [I|[]]. injection I as -> ->.
    apply (satisfied_form st "=" c [Num v] (value (f_cols d) x c) v); [apply value_state; [exact L|exact ST|exact C]|apply denotes_num|]. apply comparison_eq. exact (mean_constant d x ws c v W (A c C) EC). }
  destruct (length (f_cols d) =? length constants).
  - injection E as <- <-. exact CS.
  - destruct (dependency_loop _ _ _ _ _ _) as (removed & conditions) eqn:EL. injection E as <- <-. eapply (dependency_mean st d x ws FIT T L ST W A); [|exact CS|exact EL]. intros y Y. apply filter_In in Y. apply Y.
Qed.
Lemma hull_mean st vars vals points a b : exact_hull unit hull -> Forall2 (denotes st) vars vals -> ~ In dummy_text vars -> rectangular (length vars) points ->
  in_hull points vals -> execute_convex_hull unit hull points = Ok (a, b) ->
  forall t, In t (construct_pddl_inequality_scheme unit a b vars "<=") -> satisfied st t.
Proof.
  intros (SH & EX) D ND R IH E. unfold execute_convex_hull in E. destruct (hull points) as [(a0 & b0)|] eqn:EH; [|discriminate]. injection E as <- <-.
  destruct (EX points a0 b0 EH) as (CA & CB). destruct (SH points a0 b0 EH) as (LE & BD). rewrite Forall_forall in CA. rewrite Forall_forall in CB.
  assert (LV : length vals = length vars) by (clear - D; induction D; cbn; congruence).
  assert (CI : forall r, In r a0 -> exists beta, In (r, beta) (combine a0 b0)).
  { clear - LE. revert b0 LE. induction a0 as [|x a0 IH]; intros [|y b0] LE r I; try discriminate; [destruct I|]. cbn. destruct I as [->|I]; [eauto|]. destruct (IH b0) with (r := r) as (beta & B); [cbn in LE; lia|exact I|eauto]. }
  apply (scheme_all unit st vars vals); [exact D|exact ND| |].
  - apply Forall_forall. intros r I. apply in_map_iff in I. destruct I as (r0 & <- & I). destruct (CI r0 I) as (beta & CB'). destruct (BD (length vars) r0 beta R CB') as (B1 & B2 & _).
    destruct (prettify_list_clean unit r0 (CA r0 I)) as (PE & PC). split; [unfold prettify_coefficients; rewrite map_length; exact B1|]. split; [eapply not_zero_ext; eassumption|exact PC].
  - intros r beta I. apply combine_fst_map in I. destruct I as (r0 & I & ->). unfold prettify_coefficients at 1 in I. apply combine_snd_map in I. destruct I as (b & I & ->).
    destruct (BD (length vars) r0 b R I) as (_ & _ & B3). apply comparison_le.
    destruct (prettify_list_clean unit r0 (CA r0 (in_combine_l _ _ _ _ I))) as (PE & _). rewrite (linear_ext _ _ _ PE), (prettify_clean unit b (CB b (in_combine_r _ _ _ _ I))).
    apply (in_hull_le (length vars) points vals r0 b R LV IH B3).
Qed.
Lemma pair_mean st t x xs lo hi : (1 # unit < 1)%Q -> denotes st t x -> t <> dummy_text -> Forall (clean unit) xs -> In lo xs -> In hi xs -> (lo <= x)%Q -> (x <= hi)%Q ->
  forall s, In s (construct_pddl_inequality_scheme unit [[(-1)%Q]; [1%Q]] (construct_single_dimension_convex_hull unit xs) [t] "<=") -> satisfied st s.
Proof.
  intros U D ND C I1 I2 A1 A2. destruct (single_hull_bounds unit xs lo C I1) as (l & h & EB & B1 & _). destruct (single_hull_bounds unit xs hi C I2) as (l' & h' & EB' & _ & B2). rewrite EB in EB'. injection EB' as <- <-. rewrite EB.
  apply (scheme_all unit st [t] [x]).
  - constructor; [exact D|constructor].
  - intros [X|[]]. congruence.
  - apply pair_rows. exact U.
  - intros r beta [I|[I|[]]]; injection I as <- <-; apply comparison_le; cbn [linear]; lra.
Qed.
Lemma hull_conditions_mean st d x extra l : (1 # unit < 1)%Q -> exact_hull unit hull -> exact_basis unit gram complement -> table d -> clean_data unit d ->
  length x = length (f_cols d) -> row_state st (f_cols d) x -> in_hull (f_rows d) x -> (forall t, In t extra -> satisfied st t) ->
  convex_hull_conditions unit hull gram complement d extra = Ok l -> forall t, In t l -> satisfied st t.
Proof.
  intros U EH EB T C L0 ST IH EX E. unfold convex_hull_conditions in E. destruct T as (N & R & ND).
  pose proof (denotes_row st (f_cols d) x L0 ST) as DEN. pose proof (in_hull_some _ _ IH) as NE.
  set (n := length (f_cols d)) in *. set (shift := hd [] (f_rows d)) in *. set (shifted := map _ (f_rows d)) in *. set (basis := gram shifted) in *.
  destruct ((n <? length shifted) && (n <=? length basis)).
  - destruct (execute_convex_hull unit hull (f_rows d)) as [(a & b)|] eqn:EE; [|discriminate]. cbn [bind] in E. injection E as <-. intros t H. apply in_app_iff in H. destruct H as [H|H]; [|apply EX; exact H].
    exact (hull_mean st (f_cols d) x (f_rows d) a b EH DEN ND R IH EE t H).
  - destruct (shift_row unit d (conj N (conj R ND)) C NE) as (LS & CSH). fold shift in LS, CSH. fold n in LS.
    set (delta := map (fun xy => (fst xy - snd xy)%Q) (combine x shift)).
    assert (RS : rectangular n shifted). { intros r H. unfold shifted in H. apply in_map_iff in H. destruct H as (r0 & <- & H). rewrite map_length, combine_length. rewrite (R r0 H). fold n. lia. }
    assert (LD : length delta = n) by (unfold delta; rewrite map_length, combine_length; lia).
    pose proof IH as (ws & W1 & W2 & W3 & H0). assert (W : weights (f_rows d) ws) by (split; [exact W1|split; [exact W2|exact W3]]).
    assert (LSH : length shifted = length (f_rows d)) by (unfold shifted; apply map_length).
    assert (HD : in_hull shifted delta).
    { exists ws. split; [congruence|]. split; [exact W2|]. split; [exact W3|]. intros j J. rewrite LD in J. unfold delta. rewrite nth_sub by congruence. rewrite (H0 j) by (rewrite L0; exact J).
      unfold shifted. rewrite map_map. fold (mean (f_rows d) ws (fun r => nth j r 0%Q)). fold (mean (f_rows d) ws (fun r => nth j (map (fun xy => (fst xy - snd xy)%Q) (combine r shift)) 0%Q)).
      rewrite <- (mean_one (f_rows d) ws (nth j shift 0%Q) W) at 1. rewrite <- mean_minus. apply mean_ext. intros r I. symmetry. apply nth_sub. rewrite (R r I). symmetry. exact LS. }
    destruct (EB n shifted RS) as (B1 & B2). fold basis in B1, B2.
    assert (B1' : Forall (fun r => length r = length (f_cols d) /\ ~ Forall (fun c => c == 0)%Q r /\ Forall (clean unit) r) basis) by (eapply Forall_impl; [|exact B1]; cbn; tauto).
    destruct (projected_denotes unit st (f_cols d) x shift basis LS L0 ST CSH ND B1') as (PD & PN). fold delta in PD.
    set (projected := map (fun p => map (dot_row p) basis) shifted) in *. set (vars := construct_projected_variable_strings unit (f_cols d) shift basis) in *.
    assert (HP : in_hull projected (map (linear delta) basis)).
    { destruct HD as (vs & V1 & V2 & V3 & VH). exists vs. split; [unfold projected; rewrite map_length; exact V1|]. split; [exact V2|]. split; [exact V3|]. intros j J. rewrite (nth_indep _ 0%Q (linear delta [])) by exact J. rewrite map_length in J.
      rewrite map_nth. rewrite (hull_point n shifted vs delta RS LD VH). unfold projected. rewrite map_map. unfold mean. assert (X : Forall2 Qeq (map (fun row => linear row (nth j basis [])) shifted) (map (fun p => nth j (map (dot_row p) basis) 0%Q) shifted)).
      { clear - J. clearbody basis. induction shifted as [|p l IH]; [constructor|]. cbn [map]. constructor; [|exact IH]. rewrite (nth_indep _ 0%Q (dot_row p [])) by (rewrite map_length; exact J). rewrite map_nth. symmetry. apply dot_row_linear. }
      apply linear_ext_l. exact X. }
    assert (HULL : forall a b, (match basis with [] => Err NotSafeError | [_] => Ok ([[(-1)%Q]; [1%Q]], construct_single_dimension_convex_hull unit (map (fun p => hd 0%Q p) projected)) | _ => execute_convex_hull unit hull projected end) = Ok (a, b) ->
              forall t, In t (construct_pddl_inequality_scheme unit a b vars "<=") -> satisfied st t).
    { intros a b EE.
      assert (LV : length vars = length basis) by (unfold vars, construct_projected_variable_strings; rewrite map_length; reflexivity).
      assert (RP' : rectangular (length vars) projected). { intros r H. unfold projected in H. apply in_map_iff in H. destruct H as (q & <- & _). rewrite map_length. congruence. }
      destruct basis as [|g [|g2 gs]] eqn:BB; [discriminate| |].
      - injection EE as <- <-. clearbody vars. destruct vars as [|t0 [|t1 ts]]; try discriminate LV. inversion PD as [|? ? ? ? D1 _]; subst.
        pose proof HP as (vs & V1 & V2 & V3 & VH). specialize (VH 0 ltac:(cbn; lia)). cbn [map nth] in VH.
        destruct (mean_between projected (fun r => nth 0 r 0%Q) vs (conj V1 (conj V2 V3))) as ((p & P & PL) & (q & Q0 & QL)). unfold mean in PL, QL. rewrite <- VH in PL, QL.
        apply (pair_mean st t0 (linear delta g) _ (hd 0%Q p) (hd 0%Q q)); [exact U|exact D1| | |apply in_map; exact P|apply in_map; exact Q0|destruct p; exact PL|destruct q; exact QL].
        + intros ->. apply PN. left. reflexivity.
        + apply Forall_forall. intros y X. apply in_map_iff in X. destruct X as (p' & <- & X). unfold projected in X. apply in_map_iff in X. destruct X as (q' & <- & X). cbn [map hd].
          inversion B1 as [|? ? (_ & _ & _ & B4) _]; subst. eapply clean_ext; [symmetry; apply dot_row_linear|]. apply B4. exact X.
      - apply (hull_mean st vars (map (linear delta) (g :: g2 :: gs)) projected a b EH PD PN RP' HP EE). }
    destruct (match basis with [] => Err NotSafeError | [_] => _ | _ => _ end) as [(a & b)|] eqn:EE; [|discriminate]. cbn [bind] in E. specialize (HULL a b eq_refl).
    assert (NZ : Forall (fun e => ~ Forall (fun c => c == 0)%Q e) (complement n basis)) by (eapply Forall_impl; [|exact B2]; cbn; tauto).
    destruct (divide_span_by_common_denominator (complement n basis)) as [span|] eqn:ED; [|discriminate]. cbn [bind] in E. injection E as <-.
    intros t H. apply in_app_iff in H. destruct H as [H|H]; [apply HULL; exact H|]. apply in_app_iff in H. destruct H as [H|H]; [apply EX; exact H|].
    destruct (projected_denotes unit st (f_cols d) x shift (identity_matrix n) LS L0 ST CSH ND (identity_rows unit n U)) as (ID1 & ID2). fold delta in ID1.
    assert (OR0 : forall e, (forall v, In v shifted -> (linear v e == 0)%Q) -> (linear delta e == 0)%Q) by (intros e O; exact (in_hull_eq n shifted delta e 0%Q RS LD HD O)).
    assert (SP : Forall (fun r => length r = n /\ ~ Forall (fun c => c == 0)%Q r /\ Forall (clean unit) r /\ (linear delta r == 0)%Q) span).
    { clear - B2 ED OR0. revert span ED. induction B2 as [|e es (L & NZ & CD & OR) B2 IH]; intros span ED; [injection ED as <-; constructor|]. unfold divide_span_by_common_denominator in *. cbn [map_res] in ED.
      destruct (filter (fun c => negb (Qeq_bool c 0)) e) as [|c cs] eqn:EF; [discriminate|]. cbn [bind] in ED. destruct (map_res _ es) as [rest|] eqn:ER; [|discriminate]. injection ED as <-.
      assert (IC : In c e /\ ~ (c == 0)%Q). { assert (X : In c (filter (fun c => negb (Qeq_bool c 0)) e)) by (rewrite EF; left; reflexivity). apply filter_In in X. destruct X as (X1 & X2). split; [exact X1|]. apply Qeq_bool_neq. apply negb_true_iff. exact X2. }
      destruct IC as (IC & CN). constructor; [|apply IH; reflexivity]. split; [rewrite map_length; exact L|]. split; [|split].
      - intros F. rewrite Forall_forall in F. assert (X : (c / c == 0)%Q) by (apply F; apply in_map_iff; eauto). apply CN. assert (Y : (c / c == 1)%Q) by (field; exact CN). rewrite Y in X. discriminate X.
      - apply Forall_forall. intros y X. apply in_map_iff in X. destruct X as (z & <- & Y). apply CD; assumption.
      - rewrite linear_div, (OR0 e OR). field. exact CN. }
    revert t H. apply (scheme_all unit st _ (map (linear delta) (identity_matrix n)) span).
    + exact ID1.
    + exact ID2.
    + assert (LI : length (construct_projected_variable_strings unit (f_cols d) shift (identity_matrix n)) = n).
      { unfold construct_projected_variable_strings. rewrite map_length. unfold identity_matrix. rewrite map_length, seq_length. reflexivity. }
      rewrite LI. eapply Forall_impl; [|exact SP]. cbn. tauto.
    + intros r beta J. assert (Z : beta = 0%Q) by (apply in_combine_r in J; apply in_map_iff in J; destruct J as (? & <- & _); reflexivity). subst beta. apply comparison_eq.
      rewrite Forall_forall in SP. destruct (SP r (in_combine_l _ _ _ _ J)) as (_ & _ & _ & O). rewrite <- O. apply linear_ext_l. rewrite <- LD. apply linear_identity.
Qed.
(** Fewer columns of a mean are a mean. *)
Lemma drop_hull d x keep : table d -> length x = length (f_cols d) -> in_hull (f_rows d) x -> in_hull (f_rows (drop_columns d keep)) (restrict (f_cols d) (filter keep (f_cols d)) x).
Proof.
  intros T L H. destruct (hull_points_columns d x T L H) as (ws & W & A). pose proof (drop_table d keep T) as TD. apply hull_columns; [exact TD|unfold restrict; cbn; apply map_length|].
  exists ws. split; [destruct W as (W1 & W2); split; [cbn; rewrite map_length; exact W1|exact W2]|]. intros c C. cbn [drop_columns f_cols] in C. pose proof C as C'. apply filter_In in C'. destruct C' as (C' & _).
  assert (V : forall r, value (filter keep (f_cols d)) (restrict (f_cols d) (filter keep (f_cols d)) r) c = value (f_cols d) r c) by (intros r; unfold value at 1; rewrite get_col_restrict by exact C; reflexivity).
  unfold agrees. cbn [drop_columns f_cols f_rows]. rewrite mean_map, V. pose proof (A c C') as AC. unfold agrees in AC. rewrite AC. apply mean_ext. intros r R. rewrite V. reflexivity.
Qed.
Theorem means_satisfied data relevant conditions st x : (1 # unit < 1)%Q -> exact_fit unit fit -> exact_hull unit hull -> exact_basis unit gram complement ->
  table data -> clean_data unit data -> length x = length (f_cols data) -> row_state st (f_cols data) x ->
  in_hull (map (chosen relevant (f_cols data)) (f_rows data)) (chosen relevant (f_cols data) x) ->
  construct data relevant = Ok conditions -> all_satisfied st conditions.
Proof.
  intros U FIT EH EB T C L ST H E. unfold construct_safe_linear_inequalities in E.
  set (d := match relevant with Some fs => drop_columns data (fun c => memb c fs) | None => data end) in *.
  set (y := chosen relevant (f_cols data) x) in *.
  assert (G : table d /\ clean_data unit d /\ length y = length (f_cols d) /\ row_state st (f_cols d) y /\ map (chosen relevant (f_cols data)) (f_rows data) = f_rows d).
  { unfold d, y. destruct relevant as [fs|]; cbn [chosen]; [|repeat split; try assumption; try apply T; apply map_id].
    pose proof T as (N & R & DD). rewrite chosen_restrict by assumption.
    split; [apply drop_table; exact T|]. split; [apply drop_clean; assumption|].
    split; [unfold restrict; rewrite map_length; reflexivity|]. split; [apply restrict_state; [exact L|exact ST|intros z Z; apply filter_In in Z; apply Z]|].
    cbn [drop_columns f_rows]; apply map_ext_in; intros r I; apply chosen_restrict; [exact N|apply R; exact I]. }
  destruct G as (TD & CD & LY & SY & EQ). rewrite EQ in H. clearbody d y. clear T C L ST EQ x.
  assert (CO : forall l, (forall t, In t l -> satisfied st t) -> all_satisfied st (conditions_or_none l)) by (intros l X; destruct l; [exact Logic.I|exact X]).
  assert (PAIR : forall f d0 y0, table d0 -> length y0 = length (f_cols d0) -> in_hull (f_rows d0) y0 -> In f (f_cols d0) -> (exists lo, In lo (column d0 f) /\ (lo <= value (f_cols d0) y0 f)%Q) /\ (exists hi, In hi (column d0 f) /\ (value (f_cols d0) y0 f <= hi)%Q)).
  { intros f d0 y0 T0 L0 H0 F. destruct (hull_points_columns d0 y0 T0 L0 H0) as (ws & W & A). destruct (mean_between (f_rows d0) (fun r => value (f_cols d0) r f) ws W) as ((p & P & PL) & (q & Q0 & QL)).
    pose proof (A f F) as AF. unfold agrees in AF. rewrite <- AF in PL, QL. split; [exists (value (f_cols d0) p f)|exists (value (f_cols d0) q f)]; (split; [apply column_in; assumption|assumption]). }
  destruct ((match relevant with Some [_] => true | _ => false end) || (length (f_cols d) =? 1)).
  - destruct (match relevant with Some fs => fs | None => f_cols d end) as [|f fs]; [discriminate|]. destruct (memb f (f_cols d)) eqn:M; [|discriminate]. injection E as <-. cbn [all_satisfied].
    apply memb_In in M. assert (D : denotes st f (value (f_cols d) y f)) by (apply value_state; assumption).
    destruct (PAIR f d y TD LY H M) as (P1 & P2). destruct P1 as (lo & I1 & A1). apply (single_spec st f _ (column d f) D); [intros Z; rewrite Z in I1; exact I1|]. split; [exists lo; auto|exact P2].
  - destruct (remove_complex_linear_dependencies unit fit d) as (r & extra) eqn:ER. pose proof (remove_mean st d y FIT TD LY SY H r extra ER) as EX. pose proof (remove_shape unit fit d r extra ER) as K.
    destruct r as [filtered|]; [|injection E as <-; apply CO; exact EX]. destruct (length (f_rows filtered) =? 0) eqn:L0; [injection E as <-; apply CO; exact EX|].
    assert (G : table filtered /\ clean_data unit filtered /\ exists z, length z = length (f_cols filtered) /\ row_state st (f_cols filtered) z /\ in_hull (f_rows filtered) z).
    { destruct (K filtered eq_refl) as [->|(keep & ->)]; [eauto 6|]. split; [apply drop_table; exact TD|]. split; [apply drop_clean; assumption|]. exists (restrict (f_cols d) (filter keep (f_cols d)) y). split; [unfold restrict; cbn; apply map_length|].
      split; [apply restrict_state; [exact LY|exact SY|intros z Z; apply filter_In in Z; apply Z]|]. apply drop_hull; assumption. }
    destruct G as (TF & CF & z & LZ & SZ & HZ).
    destruct (f_cols filtered) as [|f [|f2 fs]] eqn:EC.
    + destruct (convex_hull_conditions _ _ _ _ filtered extra) as [l|] eqn:EL; [|discriminate]. cbn [bind] in E. injection E as <-. apply CO.
      apply (hull_conditions_mean st filtered z extra l U EH EB TF CF); [rewrite EC; exact LZ|rewrite EC; exact SZ|exact HZ|exact EX|exact EL].
    + injection E as <-. apply CO. intros t I. apply in_app_iff in I. destruct I as [I|I]; [|apply EX; exact I]. revert t I.
      assert (F : In f (f_cols filtered)) by (rewrite EC; left; reflexivity). rewrite <- EC in LZ, SZ.
      assert (D : denotes st f (value (f_cols filtered) z f)) by (apply value_state; assumption).
      destruct (PAIR f filtered z TF LZ HZ F) as ((lo & I1 & A1) & (hi & I2 & A2)).
      apply (pair_mean st f (value (f_cols filtered) z f) _ lo hi); [exact U|exact D| | |exact I1|exact I2|exact A1|exact A2].
      * intros ->. apply TF. exact F.
      * apply column_clean; [exact TF|exact CF|exact F].
    + destruct (convex_hull_conditions _ _ _ _ filtered extra) as [l|] eqn:EL; [|discriminate]. cbn [bind] in E. injection E as <-. apply CO.
      apply (hull_conditions_mean st filtered z extra l U EH EB TF CF); [rewrite EC; exact LZ|rewrite EC; exact SZ|exact HZ|exact EX|exact EL].
Qed.
End M.
