(** * Proofs: the invariant of the incremental hull learner *)
From Coq Require Import Lia Lqa.
From Verif Require Import IncSpec NumProofs HullProofs HullObserved HullSafe HullMean IncRemove IncState Prelude PreludeProofs.
Open Scope string_scope. Open Scope list_scope. Open Scope nat_scope.
Local Notation value_in := NumSpec.value_in.

Section Run.
Variable unit : positive.
Variable fit : list (list Q) -> list Q -> list Q * Q * bool.
Variable hull : list (list Q) -> option (list (list Q) * list Q).
Variable schmidt : list (list Q) -> list (list Q) -> list (list Q).
Hypothesis LIB : exact_libraries unit fit hull schmidt.
Let FIT := el_fit _ _ _ _ LIB.
Let SCH := el_schmidt _ _ _ _ LIB.
Notation result := (result unit fit).
Notation shaped := (shaped unit fit hull).
Notation step := (step unit fit hull schmidt).
Notation run := (run unit fit hull schmidt).

(** ** More rows keep two dimensions *)
Lemma no_two d keep c0 : table d -> 2 <= length (filter keep (f_cols d)) -> independent (length (filter keep (f_cols d))) (f_rows (drop_columns d keep)) -> (forall c, In c (f_cols d) -> affine_in d c0 c) -> False.
Proof.
  intros T L2 I A. set (n := length (filter keep (f_cols d))) in *. pose proof T as (N & R & _). destruct (filter keep (f_cols d)) as [|a [|b l]] eqn:EK; try (cbn in n; lia).
  assert (IA : In a (f_cols d) /\ In b (f_cols d)). { assert (X : In a (filter keep (f_cols d)) /\ In b (filter keep (f_cols d))) by (rewrite EK; split; [left|right; left]; reflexivity). destruct X as (X & Y). apply filter_In in X, Y. split; [apply X|apply Y]. }
  assert (RR : forall r, In r (f_rows (drop_columns d keep)) -> exists s, In s (f_rows d) /\ r = value (f_cols d) s a :: value (f_cols d) s b :: restrict (f_cols d) l s).
  { intros r X. cbn [drop_columns f_rows] in X. rewrite EK in X. apply in_map_iff in X. destruct X as (s & <- & S0). exists s. split; [exact S0|reflexivity]. }
  assert (Z : forall (k : list text) r, (linear r (map (fun _ => 0%Q) k) == 0)%Q) by (induction k as [|c k IH]; intros [|x r]; cbn; try reflexivity; rewrite IH; ring).
  destruct (A a (proj1 IA)) as (al & be & HA). destruct (A b (proj2 IA)) as (ga & de & HB).
  assert (Z1 : zero (ga :: (- al)%Q :: map (fun _ => 0%Q) l)).
  { apply (I _ (ga * be - al * de)%Q); [unfold n; cbn; rewrite map_length; reflexivity|]. intros p P. apply RR in P. destruct P as (s & S0 & ->). cbn [linear]. rewrite Z. rewrite (HA s S0), (HB s S0). ring. }
  inversion Z1 as [|? ? _ Z2]; subst. inversion Z2 as [|? ? AL _]; subst.
  assert (Z3 : zero (1%Q :: 0%Q :: map (fun _ => 0%Q) l)).
  { apply (I _ be); [unfold n; cbn; rewrite map_length; reflexivity|]. intros p P. apply RR in P. destruct P as (s & S0 & ->). cbn [linear]. rewrite Z. rewrite (HA s S0). assert (AL' : (al == 0)%Q) by lra. rewrite AL'. ring. }
  inversion Z3 as [|? ? X _]; subst. discriminate X.
Qed.
Lemma grows d d' : table d -> table d' -> f_cols d' = f_cols d -> incl (f_rows d) (f_rows d') -> f_rows d <> [] -> complete_fit fit d -> complete_fit fit d' ->
  2 <= length (f_cols (fst (result d))) -> 2 <= length (f_cols (fst (result d'))).
Proof.
  intros T T' EC IN NE CF CF' N2. assert (NE' : f_rows d' <> []) by (destruct (f_rows d) as [|r l]; [congruence|]; intros X; rewrite X in IN; destruct (IN r (or_introl eq_refl))).
  destruct (result_forms unit fit hull schmidt LIB d T NE CF) as [(X & _)|[(L1 & X & _)|(L2 & keep & X & RM)]]; [rewrite X in N2; cbn in N2; lia|rewrite X in N2; lia|].
  rewrite X in N2. cbn [drop_columns f_cols] in N2. destruct (result_forms unit fit hull schmidt LIB d' T' NE' CF') as [(Y & _ & _ & K)|[(L1 & _)|(_ & keep' & Y & RM')]]; [exfalso|rewrite EC in L1; lia|].
  - destruct (f_cols d) as [|c0 cs] eqn:ED; [cbn in N2; lia|]. apply (no_two d keep c0 T); rewrite ED; [exact N2|pose proof (rm_indep _ _ _ RM) as I; rewrite ED in I; exact I|].
    intros c C. assert (C' : In c (f_cols d')) by (rewrite EC; exact C). destruct (K c C') as (v & V). exists 0%Q, v. intros r R. specialize (V (value (f_cols d') r c) (column_in d' r c (IN r R))). rewrite EC in V. rewrite ED, V. ring.
  - rewrite Y. cbn [drop_columns f_cols]. destruct (filter keep' (f_cols d')) as [|c0 [|c1 l]] eqn:EK; [destruct (rm_some _ _ _ RM' EK)| |cbn; lia]. exfalso.
    apply (no_two d keep c0 T N2 (rm_indep _ _ _ RM)). intros c C. assert (C' : In c (f_cols d')) by (rewrite EC; exact C). destruct (rm_one _ _ _ RM' c0 EK c C') as (al & be & H). exists al, be. intros r R. rewrite <- EC. apply H. apply IN. exact R.
Qed.

(** ** The invariant *)
Record good (cols : list text) (ps : list (list (text * Q))) (relevant : list text) (st : inc) : Prop := {
  g_cols : f_cols (i_data st) = cols;
  g_stores : stores (i_data st) ps;
  g_fit : complete_fit fit (i_data st);
  g_relevant : i_relevant st = relevant;
  g_empty : f_rows (i_data st) = [] -> i_base st = None /\ i_hull st = None /\ ps = [];
  g_shape : f_rows (i_data st) <> [] -> shaped st (picked st) }.

Section Cols.
Variable cols : list text.
Hypothesis NC : NoDup cols.
Hypothesis SC : cols <> [].
Hypothesis DC : ~ In dummy_text cols.

Lemma good_table ps R st : good cols ps R st -> table (i_data st).
Proof. intros G. eapply stores_table; [rewrite (g_cols _ _ _ _ G); exact DC|exact (g_stores _ _ _ _ G)]. Qed.
Lemma good_picked ps R st : good cols ps R st -> f_rows (i_data st) <> [] ->
  table (picked st) /\ f_rows (picked st) <> [] /\ length (f_rows (picked st)) = length (f_rows (i_data st)) /\ complete_fit fit (picked st).
Proof.
  intros G NE. pose proof (good_table _ _ _ G) as T. split; [apply drop_table; exact T|]. split; [cbn; destruct (f_rows (i_data st)); [congruence|discriminate]|]. split; [cbn; apply map_length|]. apply drop_complete; [exact T|exact (g_fit _ _ _ _ G)].
Qed.
Lemma add_good ps R st p : good cols ps R st -> over cols p -> (forall d, f_cols d = cols -> stores d (ps ++ [p]) -> complete_fit fit d) ->
  (forall st', IncModel.add_new_point unit fit hull schmidt st p = Ok st' -> good cols (ps ++ [p]) R st') /\ done hull (IncModel.add_new_point unit fit hull schmidt st p).
Proof.
  intros G O CFN. pose proof (good_table _ _ _ G) as T. pose proof T as (N & RT & _). pose proof (g_cols _ _ _ _ G) as EC. pose proof (g_stores _ _ _ _ G) as ST. unfold IncModel.add_new_point.
  rewrite concat_over; [|rewrite EC; exact SC|exact N|exact RT|rewrite EC; exact O].
  destruct (has_duplicates _) eqn:HD.
  - split; [|left; eauto]. intros st' E. injection E as <-. apply duplicates_spec in HD; [|rewrite EC; exact SC|apply ST]. pose proof (stores_same _ _ _ ST HD) as ST'. constructor; try apply G; [exact ST'|].
    intros Z. destruct HD as (s & S0 & _). rewrite Z in S0. destruct S0.
  - set (x := row_of (f_cols (i_data st)) p) in *. set (d' := mk_frame (f_cols (i_data st)) (f_rows (i_data st) ++ [x])) in *.
    assert (NEW : forall s, In s (f_rows (i_data st)) -> ~ Forall2 Qeq s x). { intros s S0 X. assert (Y : has_duplicates d' = true) by (apply duplicates_spec; [rewrite EC; exact SC|apply ST|exists s; auto]). congruence. }
    pose proof (stores_more _ _ _ ST NEW) as ST'. fold x in ST'. fold d' in ST'. assert (CF' : complete_fit fit d') by (apply CFN; [exact EC|exact ST']).
    set (st1 := mk_inc (i_relevant st) d' (i_ind st) (i_conds st) (i_base st) (i_comp st) (i_standard st) (i_hull st)).
    assert (T' : table d') by (eapply stores_table; [rewrite <- EC in DC; exact DC|exact ST']). assert (TP : table (picked st1)) by (apply drop_table; exact T').
    assert (RP : f_rows (picked st1) = f_rows (picked st) ++ [restrict (f_cols (i_data st)) (f_cols (picked st)) x]) by (unfold picked, st1; cbn [drop_columns i_data i_relevant f_rows d']; apply map_app).
    assert (NP : f_rows (picked st1) <> []) by (rewrite RP; intros X; apply app_eq_nil in X; destruct X; discriminate).
    assert (LP : length (f_rows (picked st1)) = length (f_rows (i_data st1))) by (cbn; rewrite map_length; reflexivity).
    assert (CFP : complete_fit fit (picked st1)) by (apply drop_complete; assumption). assert (ECP : f_cols (picked st1) = f_cols (picked st)) by reflexivity.
    assert (HN : length (f_cols (fst (result (picked st1)))) <= 1 -> i_hull st1 = None).
    { intros LE. cbn [i_hull st1]. destruct (f_rows (i_data st)) as [|r0 rows] eqn:ER; [apply (g_empty _ _ _ _ G ER)|]. assert (NE : f_rows (i_data st) <> []) by (rewrite ER; discriminate). clear ER.
      destruct (good_picked _ _ _ G NE) as (TO & NO & LO & CO). pose proof (g_shape _ _ _ _ G NE) as SH. unfold IncState.shaped in SH. destruct (result (picked st)) as (ind & conds) eqn:EO. destruct SH as (_ & _ & _ & S2 & S1).
      apply S1. destruct (le_lt_dec 2 (length (f_cols ind))) as [GE|]; [exfalso|lia].
      pose proof (grows (picked st) (picked st1) TO TP ECP) as GR. rewrite EO in GR. specialize (GR ltac:(intros r I; rewrite RP; apply in_app_iff; left; exact I) NO CO CFP GE). lia. }
    destruct (calc_ok unit fit hull schmidt LIB st1 false TP NP LP CFP HN) as (OKS & TOT).
    { intros _ base EB CN ECO. cbn [i_base i_conds i_comp i_standard st1] in *. destruct (f_rows (i_data st)) as [|r0 rows] eqn:ER; [destruct (g_empty _ _ _ _ G ER) as (X & _); congruence|]. assert (NE : f_rows (i_data st) <> []) by (rewrite ER; discriminate). clear ER.
      destruct (good_picked _ _ _ G NE) as (TO & NO & LO & CO). pose proof (g_shape _ _ _ _ G NE) as SH. unfold IncState.shaped in SH. pose proof (result_forms unit fit hull schmidt LIB (picked st) TO NO CO) as FO. pose proof (result_forms unit fit hull schmidt LIB (picked st1) TP NP CFP) as FN.
      destruct (result (picked st)) as (ind & conds) eqn:EO. destruct SH as (_ & SC2 & SB & _). cbn [fst snd] in FO. rewrite EB in SB. rewrite SC2 in ECO.
      destruct FN as [(X & _)|[(L1 & X & Y)|(L2 & keep & X & RM)]]; [contradiction| |].
      - rewrite X, Y in *. rewrite ECP in L1. destruct FO as [(_ & _ & LL & _)|[(_ & X' & _)|(L2 & _)]]; [exfalso; rewrite ECO, L1 in LL; discriminate| |lia]. subst ind. destruct (SB ltac:(intros Z; rewrite Z in L1; discriminate)) as (B1 & B2).
        destruct (B2 L1) as [B|(B & _ & K)].
        + left. rewrite ECP, L1. split; [lia|]. intros _. left. exact B.
        + right. injection B as ->. split; [reflexivity|]. split; [exact L1|]. exists (f_rows (picked st)), (restrict (f_cols (i_data st)) (f_cols (picked st)) x). auto.
      - left. rewrite ECP in L2. destruct FO as [(_ & _ & LL & _)|[(L1 & _)|(_ & keep' & X' & RM')]]; [exfalso|lia|].
        + pose proof (rm_count _ _ _ RM) as RC. pose proof (rm_some _ _ _ RM) as RS. rewrite <- ECO, LL, ECP in RC. rewrite ECP in RS. destruct (filter keep (f_cols (picked st))); [congruence|cbn in RC; lia].
        + subst ind. pose proof (rm_count _ _ _ RM) as RC. pose proof (rm_count _ _ _ RM') as RC'. rewrite <- ECO in RC. rewrite ECP in RC. rewrite X. cbn [drop_columns f_cols f_rows] in *. rewrite ECP.
          assert (EN : length (filter keep (f_cols (picked st))) = length (filter keep' (f_cols (picked st)))) by lia. rewrite EN. destruct (SB (rm_some _ _ _ RM')) as (B1 & B2). split; [exact B1|]. intros N1. destruct (B2 N1) as [B|(_ & LO' & _)]; [left; exact B|unfold lone in LO'; lia]. }
    split; [|exact TOT]. intros st' E. destruct (OKS st' E) as (E1 & E2 & E3). cbn [i_relevant i_data st1] in E1, E2. assert (EP : picked st1 = picked st') by (unfold picked; rewrite E1, E2; reflexivity). rewrite EP in E3.
    constructor; rewrite ?E2; [exact EC|exact ST'|exact CF'|rewrite E1; apply G| |intros _; exact E3]. intros Z. cbn in Z. apply app_eq_nil in Z. destruct Z; discriminate.
Qed.
Lemma reset_good ps R st fs : good cols ps R st ->
  (forall st', reset unit fit hull schmidt st fs = Ok st' -> good cols ps fs st') /\ (i_hull st <> None -> done hull (reset unit fit hull schmidt st fs)).
Proof.
  intros G. unfold reset. destruct (i_hull st) as [h|] eqn:EH; [|split; [discriminate|congruence]].
  set (st1 := mk_inc fs (i_data st) (i_ind st) (i_conds st) (i_base st) (i_comp st) (i_standard st) None).
  assert (NE : f_rows (i_data st) <> []) by (intros Z; destruct (g_empty _ _ _ _ G Z) as (_ & X & _); congruence). pose proof (good_table _ _ _ G) as T.
  assert (TP : table (picked st1)) by (apply drop_table; exact T). assert (NP : f_rows (picked st1) <> []) by (cbn; destruct (f_rows (i_data st)); [congruence|discriminate]).
  assert (LP : length (f_rows (picked st1)) = length (f_rows (i_data st1))) by (cbn; rewrite map_length; reflexivity). assert (CFP : complete_fit fit (picked st1)) by (apply drop_complete; [exact T|apply G]).
  destruct (calc_ok unit fit hull schmidt LIB st1 true TP NP LP CFP ltac:(reflexivity) ltac:(discriminate)) as (OKS & TOT). split; [|intros _; exact TOT].
  intros st' E. destruct (OKS st' E) as (E1 & E2 & E3). cbn [i_relevant i_data st1] in E1, E2. assert (EP : picked st1 = picked st') by (unfold picked; rewrite E1, E2; reflexivity). rewrite EP in E3.
  constructor; rewrite ?E2; try apply G; [exact E1|contradiction|intros _; exact E3].
Qed.
End Cols.

(** ** Runs *)
Lemma run_snoc cols ops o : run cols (ops ++ [o]) = bind (run cols ops) (fun st => step st o).
Proof. unfold IncModel.run. rewrite fold_left_app. reflexivity. Qed.
Lemma points_snoc ops o : points_of (ops ++ [o]) = points_of ops ++ points_of [o].
Proof. unfold points_of. rewrite flat_map_app. reflexivity. Qed.
Lemma input_prefix cols ops o : inc_input unit fit cols (ops ++ [o]) -> inc_input unit fit cols ops.
Proof.
  intros [A B C D E F G H]. assert (I : incl (points_of ops) (points_of (ops ++ [o]))) by (rewrite points_snoc; intros p P; apply in_app_iff; left; exact P). constructor; auto.
  - intros fs X. apply E. apply in_app_iff. left. exact X.
  - intros k d EC ST. apply (H (min k (length ops)) d EC). rewrite firstn_app. replace (min k (length ops) - length ops) with 0 by lia. rewrite app_nil_r. replace (firstn (min k (length ops)) ops) with (firstn k ops); [exact ST|].
    destruct (le_lt_dec k (length ops)); [rewrite Nat.min_l by assumption; reflexivity|]. rewrite Nat.min_r, firstn_all, firstn_all2 by lia. reflexivity.
Qed.
Lemma new_good cols : NoDup cols -> (forall d, f_cols d = cols -> stores d [] -> complete_fit fit d) -> good cols [] cols (new_learner cols None).
Proof.
  intros N CF. assert (ST : stores (mk_frame cols []) []). { split; [exact N|]. split; [constructor|]. split; [intros r []|intros p []]. }
  constructor; cbn; auto. congruence.
Qed.
Theorem run_good cols ops st : inc_input unit fit cols ops -> run cols ops = Ok st -> good cols (points_of ops) (relevant_of cols ops) st.
Proof.
  revert st. induction ops as [|o ops IH] using rev_ind; intros st I E.
  - cbn in E. injection E as <-. apply new_good; [apply I|]. intros d D ST. apply (ii_fit _ _ _ _ I 0 d D ST).
  - rewrite run_snoc in E. destruct (run cols ops) as [st0|] eqn:E0; [|discriminate]. cbn [bind] in E. pose proof (IH st0 (input_prefix _ _ _ I) eq_refl) as G. rewrite points_snoc. unfold relevant_of. rewrite fold_left_app. fold (relevant_of cols ops).
    destruct o as [p|fs]; cbn [IncModel.step] in E.
    + refine (proj1 (add_good cols (ii_some _ _ _ _ I) (ii_dummy _ _ _ _ I) _ _ st0 p G _ _) st E).
      * apply (ii_points _ _ _ _ I). rewrite points_snoc. apply in_app_iff. right. left. reflexivity.
      * intros d D ST. apply (ii_fit _ _ _ _ I (length (ops ++ [AddPoint p])) d D). rewrite firstn_all, points_snoc. exact ST.
    + cbn [points_of flat_map]. rewrite app_nil_r. exact (proj1 (reset_good cols (ii_dummy _ _ _ _ I) _ _ st0 fs G) st E).
Qed.
Theorem add_total cols ops : inc_input unit fit cols ops -> (forall fs, ~ In (ResetTo fs) ops) -> done hull (run cols ops).
Proof.
  intros I NR. induction ops as [|o ops IH] using rev_ind; [left; eexists; reflexivity|]. rewrite run_snoc.
  destruct (IH (input_prefix _ _ _ I)) as [(st0 & E0)|(E0 & F)]; [intros fs X; apply (NR fs), in_app_iff; left; exact X| |right; rewrite E0; split; [reflexivity|exact F]]. pose proof (run_good cols ops st0 (input_prefix _ _ _ I) E0) as G. rewrite E0. cbn [bind].
  destruct o as [p|fs]; [|exfalso; apply (NR fs), in_app_iff; right; left; reflexivity]. cbn [IncModel.step].
  refine (proj2 (add_good cols (ii_some _ _ _ _ I) (ii_dummy _ _ _ _ I) _ _ st0 p G _ _)).
  + apply (ii_points _ _ _ _ I). rewrite points_snoc. apply in_app_iff. right. left. reflexivity.
  + intros d D ST. apply (ii_fit _ _ _ _ I (length (ops ++ [AddPoint p])) d D). rewrite firstn_all, points_snoc. exact ST.
Qed.
(** The learner can be reset once it has a hull. *)
Theorem reset_total cols ops st fs : inc_input unit fit cols ops -> run cols ops = Ok st -> (i_hull st <> None /\ done hull (run cols (ops ++ [ResetTo fs]))) \/ (i_hull st = None /\ run cols (ops ++ [ResetTo fs]) = Err AttributeError).
Proof.
  intros I E. pose proof (run_good cols ops st I E) as G. rewrite run_snoc, E. cbn [bind IncModel.step]. destruct (i_hull st) as [h|] eqn:EH; [left|right].
  - split; [discriminate|]. refine (proj2 (reset_good cols (ii_dummy _ _ _ _ I) _ _ st fs G) _). rewrite EH. discriminate.
  - unfold reset. rewrite EH. auto.
Qed.
End Run.
