(** * Proofs about precision and recall *)
From Coq Require Import Lqa.
From Verif Require Import StatsModel StatsSpec Prelude PreludeProofs.
Open Scope string_scope. Open Scope list_scope. Open Scope nat_scope.

(** ** Ratios *)
Lemma py_div_ok n d : 0 < d -> exists q, py_div n d = Ok q /\ is_ratio q n d.
Proof.
  intros H; destruct d; [lia|]. eexists; split; [reflexivity|]. split; [lia|].
  unfold Qeq, Qdiv, Qmult, Qinv, inject_Z; cbn [Qnum Qden].
  destruct (Z.of_nat (S d)) eqn:E; try lia. cbn [Qnum Qden].
  rewrite Pos2Nat.inj_iff || idtac.
  replace (Z.pos (Pos.of_nat (S d))) with (Z.of_nat (S d)); [rewrite E; lia|].
  rewrite <- (Nat2Pos.id (S d)) at 1 by lia. apply positive_nat_Z.
Qed.

Lemma ratio_unit q n d : is_ratio q n d -> n <= d -> in_unit q.
Proof.
  intros [H E] L. unfold in_unit. rewrite E.
  assert (D : (0 < inject_Z (Z.of_nat d))%Q) by (unfold Qlt; simpl; lia).
  split.
  - apply Qle_shift_div_l; [exact D|]. unfold Qle; simpl; lia.
  - apply Qle_shift_div_r; [exact D|]. rewrite Qmult_1_l. unfold Qle; simpl; lia.
Qed.
Lemma ratio_one q n d : is_ratio q n d -> ((q == 1)%Q <-> n = d).
Proof.
  intros [H E].
  assert (D : ~ (inject_Z (Z.of_nat d) == 0)%Q) by (unfold Qeq; simpl; lia).
  split.
  - intros O. rewrite O in E. assert (X : (inject_Z (Z.of_nat d) == inject_Z (Z.of_nat n))%Q).
    { rewrite <- (Qmult_1_l (inject_Z (Z.of_nat d))). rewrite E. apply Qmult_div_r || field; exact D. }
    unfold Qeq in X; simpl in X; lia.
  - intros ->. rewrite E. field; exact D.
Qed.
Lemma ratio_zero q n d : is_ratio q n d -> ((q == 0)%Q <-> n = 0).
Proof.
  intros [H E].
  assert (D : ~ (inject_Z (Z.of_nat d) == 0)%Q) by (unfold Qeq; simpl; lia).
  split.
  - intros O. rewrite O in E. assert (X : (inject_Z (Z.of_nat n) == 0)%Q).
    { assert (Y : (inject_Z (Z.of_nat n) == (inject_Z (Z.of_nat n) / inject_Z (Z.of_nat d)) * inject_Z (Z.of_nat d))%Q) by (field; exact D).
      rewrite Y, <- E. ring. }
    unfold Qeq in X; simpl in X; lia.
  - intros ->. rewrite E. unfold Qdiv. rewrite Qmult_0_l. reflexivity.
Qed.

Lemma share_ok x y : exists q, share x y = Ok q /\ in_unit q /\ ((q == 1)%Q <-> y = 0) /\ (0 < x + y -> is_ratio q x (x + y)).
Proof.
  unfold share. destruct ((x =? 0) && (y =? 0)) eqn:E.
  - apply andb_true_iff in E. rewrite !Nat.eqb_eq in E. destruct E as [-> ->].
    exists 1%Q. split; [reflexivity|]. split; [unfold in_unit; split; lra|]. split; [|lia].
    split; reflexivity.
  - assert (P : 0 < x + y).
    { apply andb_false_iff in E. rewrite !Nat.eqb_neq in E. lia. }
    destruct (py_div_ok x (x + y) P) as (q & -> & R). exists q. split; [reflexivity|].
    split; [apply (ratio_unit _ _ _ R); lia|]. split; [|auto].
    rewrite (ratio_one _ _ _ R). lia.
Qed.

(** ** Counting set elements *)
Section Count.
Context {A : Type} `{EqDec A}.
Lemma split_length (s l : list A) : length (set_inter s l) + length (set_diff s l) = length s.
Proof. unfold set_inter, set_diff. induction s as [|x s IH]; simpl; [reflexivity|]. destruct (memb x l); simpl; lia. Qed.
Lemma diff_zero (s l : list A) : length (set_diff s l) = 0 <-> incl s l.
Proof.
  unfold set_diff. split.
  - intros L x I. destruct (memb x l) eqn:E; [apply memb_In; exact E|].
    assert (X : In x (filter (fun y => negb (memb y l)) s)) by (apply filter_In; rewrite E; auto).
    destruct (filter _ s); [destruct X|simpl in L; lia].
  - intros I. induction s as [|x s IH]; simpl; [reflexivity|].
    rewrite (proj2 (memb_In x l)) by (apply I; left; reflexivity). simpl. apply IH. intros y Y; apply I; right; exact Y.
Qed.
Lemma inter_zero (s l : list A) : length (set_inter s l) = 0 <-> forall x, In x s -> ~ In x l.
Proof.
  unfold set_inter. split.
  - intros L x I N. assert (X : In x (filter (fun y => memb y l) s)) by (apply filter_In; rewrite memb_In; auto).
    destruct (filter _ s); [destruct X|simpl in L; lia].
  - intros I. induction s as [|x s IH]; simpl; [reflexivity|].
    rewrite (proj2 (memb_nIn x l)) by (apply I; left; reflexivity). apply IH. intros y Y; apply I; right; exact Y.
Qed.
Lemma same_elements (s t : list A) : NoDup s -> NoDup t -> (forall x, In x s <-> In x t) -> length s = length t.
Proof.
  intros N1 N2 E. apply Nat.le_antisymm; apply NoDup_incl_length; try assumption; intros x I; apply E; exact I.
Qed.
Lemma inter_length_sym (s l : list A) : NoDup s -> NoDup l -> length (set_inter s l) = length (set_inter l s).
Proof.
  intros N1 N2. apply same_elements; try (apply NoDup_filter; assumption). intros x; rewrite !set_inter_In. tauto.
Qed.
End Count.

(** ** The set level ratios *)
Lemma recall_ok learned actual : NoDup learned -> NoDup actual -> exists q, calculate_syntactic_recall learned actual = Ok q /\
  in_unit q /\ ((q == 1)%Q <-> incl actual learned) /\
  (actual <> [] -> is_ratio q (length (set_inter learned actual)) (length actual)).
Proof.
  intros N1 N2. unfold calculate_syntactic_recall. destruct actual as [|a actual'] eqn:EA.
  - simpl. exists 1%Q. split; [reflexivity|]. split; [unfold in_unit; lra|]. split; [|congruence].
    split; [intros _ x []|reflexivity].
  - rewrite <- EA in *. replace (length actual =? 0) with false by (rewrite EA; reflexivity).
    destruct learned as [|l learned'] eqn:EL.
    + simpl. exists 0%Q. split; [reflexivity|]. split; [unfold in_unit; lra|]. split.
      * split; [intros X; exfalso; lra|]. intros I. rewrite EA in I. destruct (I a (or_introl eq_refl)).
      * intros _. rewrite EA. split; [simpl; lia|]. unfold Qdiv. rewrite Qmult_0_l. reflexivity.
    + rewrite <- EL in *. replace (length learned =? 0) with false by (rewrite EL; reflexivity).
      unfold calculate_number_true_positives, calculate_number_false_negatives.
      assert (S : length (set_inter learned actual) + length (set_diff actual learned) = length actual).
      { rewrite inter_length_sym by assumption. apply split_length. }
      rewrite S. destruct (py_div_ok (length (set_inter learned actual)) (length actual)) as (q & -> & R).
      { rewrite EA; simpl; lia. }
      exists q. split; [reflexivity|]. split; [apply (ratio_unit _ _ _ R); lia|]. split; [|intros _; exact R].
      rewrite (ratio_one _ _ _ R), <- diff_zero. lia.
Qed.

Lemma precision_ok learned actual : exists q, calculate_syntactic_precision learned actual = Ok q /\
  in_unit q /\ ((q == 1)%Q <-> incl learned actual /\ (learned = [] -> actual = [])) /\
  (learned <> [] -> is_ratio q (length (set_inter learned actual)) (length learned)).
Proof.
  unfold calculate_syntactic_precision. destruct learned as [|l learned'] eqn:EL.
  - simpl. destruct actual as [|a actual']; simpl.
    + exists 1%Q. split; [reflexivity|]. split; [unfold in_unit; lra|]. split; [|congruence].
      split; [intros _; split; [intros x []|auto]|reflexivity].
    + exists 0%Q. split; [reflexivity|]. split; [unfold in_unit; lra|]. split; [|congruence].
      split; [intros X; exfalso; lra|]. intros [_ X]. discriminate (X eq_refl).
  - rewrite <- EL. replace (length learned =? 0) with false by (rewrite EL; reflexivity).
    unfold calculate_number_true_positives, calculate_number_false_positives. rewrite split_length.
    destruct (py_div_ok (length (set_inter learned actual)) (length learned)) as (q & -> & R).
    { rewrite EL; simpl; lia. }
    exists q. pose proof (split_length learned actual) as S. split; [reflexivity|].
    split; [apply (ratio_unit _ _ _ R); lia|]. split; [|intros _; exact R].
    rewrite (ratio_one _ _ _ R), <- diff_zero. split; [intros X; split; [lia|rewrite EL; congruence]|lia].
Qed.

(** ** The calculator *)
Lemma get_set_set d k v k' : get_set (dict_set d k v) k' = if eq_dec k' k then v else get_set d k'.
Proof. unfold get_set. rewrite dict_get_set. destruct (eq_dec k' k); reflexivity. Qed.

Definition stored (c : calculator) (L M : action_data) : Prop :=
  get_set (c_pre c) (ad_name L) = to_set (ad_pre L) /\ get_set (c_gt_pre c) (ad_name L) = to_set (ad_pre M) /\
  get_set (c_eff c) (ad_name L) = to_set (ad_eff L) /\ get_set (c_gt_eff c) (ad_name L) = to_set (ad_eff M).

Lemma compare_gen ps c : NoDup (map (fun p : action_data * action_data => ad_name (fst p)) ps) ->
  (forall L M, In (L, M) ps -> ad_name L = ad_name M) ->
  let c' := fold_left (fun c (p : action_data * action_data) => add_action_data c (fst p) (snd p)) ps c in
  (forall L M, In (L, M) ps -> stored c' L M) /\
  (forall L M, stored c L M -> ~ In (ad_name L) (map (fun p : action_data * action_data => ad_name (fst p)) ps) -> stored c' L M) /\
  c_learned c' = c_learned c ++ map (fun p : action_data * action_data => ad_name (fst p)) ps.
Proof.
  revert c. induction ps as [|[L0 M0] ps IH]; intros c N E; cbn [fold_left map fst snd].
  - simpl. split; [intros L M []|]. split; [auto|]. rewrite app_nil_r; reflexivity.
  - inversion N as [|? ? N0 N1]; subst. destruct (IH (add_action_data c L0 M0) N1) as (I1 & I2 & I3).
    { intros L M X; apply E; right; exact X. }
    assert (E0 : ad_name L0 = ad_name M0) by (apply E; left; reflexivity).
    assert (X : stored (add_action_data c L0 M0) L0 M0).
    { unfold stored, add_action_data; cbn [c_pre c_gt_pre c_eff c_gt_eff]. rewrite !get_set_set, E0.
      destruct (eq_dec (ad_name M0) (ad_name M0)); [auto|congruence]. }
    split; [|split].
    + intros L M [Y|Y]; [inversion Y; subst; apply I2; assumption|apply I1; exact Y].
    + intros L M S F. apply I2; [|intros Y; apply F; right; exact Y].
      assert (D : ad_name L <> ad_name L0) by (intros Y; apply F; left; symmetry; exact Y).
      unfold stored, add_action_data in *; cbn [c_pre c_gt_pre c_eff c_gt_eff]. rewrite !get_set_set, <- E0.
      destruct (eq_dec (ad_name L) (ad_name L0)); [contradiction|]. exact S.
    + rewrite I3. unfold add_action_data; cbn [c_learned]. rewrite <- app_assoc. reflexivity.
Qed.

Lemma compare_stored ps L M : well_paired ps -> In (L, M) ps -> stored (compare_all ps) L M.
Proof. intros [N E] I. exact (proj1 (compare_gen ps new_calculator N E) L M I). Qed.
Lemma compare_learned ps : well_paired ps ->
  c_learned (compare_all ps) = map (fun p : action_data * action_data => ad_name (fst p)) ps.
Proof. intros [N E]. exact (proj2 (proj2 (compare_gen ps new_calculator N E))). Qed.

Lemma sum_tuples_stored c L M f : stored c L M ->
  sum_tuples f c (ad_name L) = f (to_set (ad_pre L)) (to_set (ad_pre M)) + f (to_set (ad_eff L)) (to_set (ad_eff M)).
Proof. intros (E1 & E2 & E3 & E4). unfold sum_tuples. rewrite E1, E2, E3, E4. reflexivity. Qed.

Lemma incl_to_set (a b : list string) : incl (to_set a) (to_set b) <-> incl a b.
Proof. split; intros I x X; [apply to_set_In, I, to_set_In, X|apply to_set_In; apply I; apply to_set_In; exact X]. Qed.

Lemma fp_zero c L M : stored c L M -> (sum_tuples calculate_number_false_positives c (ad_name L) = 0 <-> no_spurious L M).
Proof.
  intros S. rewrite (sum_tuples_stored _ _ _ _ S). unfold calculate_number_false_positives, no_spurious.
  rewrite <- (incl_to_set (ad_pre L)), <- (incl_to_set (ad_eff L)), <- !diff_zero. lia.
Qed.
Lemma fn_zero c L M : stored c L M -> (sum_tuples calculate_number_false_negatives c (ad_name L) = 0 <-> no_missing L M).
Proof.
  intros S. rewrite (sum_tuples_stored _ _ _ _ S). unfold calculate_number_false_negatives, no_missing.
  rewrite <- (incl_to_set (ad_pre M)), <- (incl_to_set (ad_eff M)), <- !diff_zero. lia.
Qed.

Lemma learned_count c L M pre eff : stored c L M -> literals_of L pre eff ->
  sum_tuples calculate_number_true_positives c (ad_name L) + sum_tuples calculate_number_false_positives c (ad_name L) =
  length pre + length eff.
Proof.
  intros S (N1 & N2 & P & E). rewrite !(sum_tuples_stored _ _ _ _ S).
  unfold calculate_number_true_positives, calculate_number_false_positives.
  pose proof (split_length (to_set (ad_pre L)) (to_set (ad_pre M))).
  pose proof (split_length (to_set (ad_eff L)) (to_set (ad_eff M))).
  rewrite (same_elements pre (to_set (ad_pre L))), (same_elements eff (to_set (ad_eff L))); try lia; try apply to_set_NoDup; try assumption;
    intros x; rewrite to_set_In; auto.
Qed.
Lemma reference_count c L M pre eff : stored c L M -> literals_of M pre eff ->
  sum_tuples calculate_number_true_positives c (ad_name L) + sum_tuples calculate_number_false_negatives c (ad_name L) =
  length pre + length eff.
Proof.
  intros S (N1 & N2 & P & E). rewrite !(sum_tuples_stored _ _ _ _ S).
  unfold calculate_number_true_positives, calculate_number_false_negatives.
  rewrite (inter_length_sym (to_set (ad_pre L))), (inter_length_sym (to_set (ad_eff L))) by apply to_set_NoDup.
  pose proof (split_length (to_set (ad_pre M)) (to_set (ad_pre L))).
  pose proof (split_length (to_set (ad_eff M)) (to_set (ad_eff L))).
  rewrite (same_elements pre (to_set (ad_pre M))), (same_elements eff (to_set (ad_eff M))); try lia; try apply to_set_NoDup; try assumption;
    intros x; rewrite to_set_In; auto.
Qed.
Lemma common_count c L M pre eff : stored c L M -> common_literals L M pre eff ->
  sum_tuples calculate_number_true_positives c (ad_name L) = length pre + length eff.
Proof.
  intros S (N1 & N2 & P & E). rewrite !(sum_tuples_stored _ _ _ _ S). unfold calculate_number_true_positives.
  rewrite (same_elements pre (set_inter (to_set (ad_pre L)) (to_set (ad_pre M)))),
    (same_elements eff (set_inter (to_set (ad_eff L)) (to_set (ad_eff M)))); try reflexivity; try assumption;
    try (apply NoDup_filter, to_set_NoDup); intros x; rewrite set_inter_In, !to_set_In; auto.
Qed.

Lemma action_precision_spec ps L M : well_paired ps -> In (L, M) ps ->
  exists q, calculate_action_precision (compare_all ps) (ad_name L) = Ok q /\ in_unit q /\ ((q == 1)%Q <-> no_spurious L M) /\
            forall pre eff pre' eff', common_literals L M pre eff -> literals_of L pre' eff' ->
              0 < length pre' + length eff' -> is_ratio q (length pre + length eff) (length pre' + length eff').
Proof.
  intros W I. pose proof (compare_stored ps L M W I) as S. unfold calculate_action_precision.
  destruct (share_ok (sum_tuples calculate_number_true_positives (compare_all ps) (ad_name L))
                     (sum_tuples calculate_number_false_positives (compare_all ps) (ad_name L))) as (q & E & U & O & R).
  exists q. split; [exact E|]. split; [exact U|]. split; [rewrite O; apply fp_zero; exact S|].
  intros pre eff pre' eff' C T P. rewrite (learned_count _ _ _ _ _ S T) in R. rewrite <- (common_count _ _ _ _ _ S C). auto.
Qed.
Lemma action_recall_spec ps L M : well_paired ps -> In (L, M) ps ->
  exists q, calculate_action_recall (compare_all ps) (ad_name L) = Ok q /\ in_unit q /\ ((q == 1)%Q <-> no_missing L M) /\
            forall pre eff pre' eff', common_literals L M pre eff -> literals_of M pre' eff' ->
              0 < length pre' + length eff' -> is_ratio q (length pre + length eff) (length pre' + length eff').
Proof.
  intros W I. pose proof (compare_stored ps L M W I) as S. unfold calculate_action_recall.
  destruct (share_ok (sum_tuples calculate_number_true_positives (compare_all ps) (ad_name L))
                     (sum_tuples calculate_number_false_negatives (compare_all ps) (ad_name L))) as (q & E & U & O & R).
  exists q. split; [exact E|]. split; [exact U|]. split; [rewrite O; apply fn_zero; exact S|].
  intros pre eff pre' eff' C T P. rewrite (reference_count _ _ _ _ _ S T) in R. rewrite <- (common_count _ _ _ _ _ S C). auto.
Qed.

Lemma list_sum_zero {A} (f : A -> nat) l : list_sum (map f l) = 0 <-> forall x, In x l -> f x = 0.
Proof.
  induction l as [|a l IH]; simpl; [split; [intros _ x []|reflexivity]|].
  split.
  - intros Z x [<-|I]; [lia|]. apply (proj1 IH); [lia|exact I].
  - intros F. rewrite (F a (or_introl eq_refl)). simpl. apply IH. intros x I; apply F; right; exact I.
Qed.

Lemma domain_precision_spec ps : well_paired ps ->
  exists q, domain_precision (compare_all ps) = Ok q /\ in_unit q /\ ((q == 1)%Q <-> forall L M, In (L, M) ps -> no_spurious L M).
Proof.
  intros W. unfold domain_precision.
  destruct (share_ok (list_sum (map (sum_tuples calculate_number_true_positives (compare_all ps)) (c_learned (compare_all ps))))
                     (list_sum (map (sum_tuples calculate_number_false_positives (compare_all ps)) (c_learned (compare_all ps)))))
    as (q & E & U & O & _).
  exists q. split; [exact E|]. split; [exact U|]. rewrite O, list_sum_zero, (compare_learned ps W). split.
  - intros F L M I. apply (fp_zero _ _ _ (compare_stored ps L M W I)). apply F. apply in_map_iff. exists (L, M). auto.
  - intros F x I. apply in_map_iff in I. destruct I as ([L M] & <- & I). cbn [fst].
    apply (fp_zero _ _ _ (compare_stored ps L M W I)). apply F; exact I.
Qed.
Lemma domain_recall_spec ps : well_paired ps ->
  exists q, domain_recall (compare_all ps) = Ok q /\ in_unit q /\ ((q == 1)%Q <-> forall L M, In (L, M) ps -> no_missing L M).
Proof.
  intros W. unfold domain_recall.
  destruct (share_ok (list_sum (map (sum_tuples calculate_number_true_positives (compare_all ps)) (c_learned (compare_all ps))))
                     (list_sum (map (sum_tuples calculate_number_false_negatives (compare_all ps)) (c_learned (compare_all ps)))))
    as (q & E & U & O & _).
  exists q. split; [exact E|]. split; [exact U|]. rewrite O, list_sum_zero, (compare_learned ps W). split.
  - intros F L M I. apply (fn_zero _ _ _ (compare_stored ps L M W I)). apply F. apply in_map_iff. exists (L, M). auto.
  - intros F x I. apply in_map_iff in I. destruct I as ([L M] & <- & I). cbn [fst].
    apply (fn_zero _ _ _ (compare_stored ps L M W I)). apply F; exact I.
Qed.

(** ** F1 *)
Lemma f1_ok p r : in_unit p -> in_unit r -> exists f, f1_score p r = Ok f /\ in_unit f /\
  ((f == 1)%Q <-> (p == 1)%Q /\ (r == 1)%Q) /\ ((f == 0)%Q <-> (p == 0)%Q \/ (r == 0)%Q) /\ (f * (p + r) == 2 * (p * r))%Q.
Proof.
  intros [P1 P2] [R1 R2]. unfold f1_score. destruct (Qeq_bool p 0 && Qeq_bool r 0) eqn:E.
  - apply andb_true_iff in E. destruct E as [E1 E2]. apply Qeq_bool_iff in E1, E2.
    exists 0%Q. split; [reflexivity|]. split; [unfold in_unit; lra|]. split; [split; [intros X; exfalso; lra|intros [X _]; exfalso; lra]|].
    split; [split; [auto|reflexivity]|]. rewrite E1, E2. ring.
  - assert (N : ~ (p + r == 0)%Q).
    { intros Z. apply andb_false_iff in E. destruct E as [E|E]; apply Qeq_bool_neq in E; apply E; lra. }
    unfold q_div. destruct (Qeq_bool (p + r) 0) eqn:E2; [apply Qeq_bool_iff in E2; contradiction|].
    eexists; split; [reflexivity|].
    assert (PR : (0 < p + r)%Q).
    { apply Qnot_le_lt. intros X. apply N. apply Qle_antisym; [exact X|]. lra. }
    assert (M : (2 * (p * r) / (p + r) * (p + r) == 2 * (p * r))%Q) by (field; exact N).
    assert (PRN : (0 <= p * r)%Q) by (apply Qmult_le_0_compat; assumption).
    assert (PR1 : (p * r <= p)%Q).
    { rewrite <- (Qmult_1_r p) at 2. rewrite !(Qmult_comm p). apply Qmult_le_compat_r; assumption. }
    assert (PR2 : (p * r <= r)%Q).
    { rewrite <- (Qmult_1_l r) at 2. apply Qmult_le_compat_r; assumption. }
    split; [|split; [|split]].
    + split; [apply Qle_shift_div_l; [exact PR|]; lra|]. apply Qle_shift_div_r; [exact PR|]. lra.
    + split.
      * intros O. assert (X : (p + r == 2 * (p * r))%Q) by (rewrite <- M, O; ring).
        assert (Y : (p * r == p)%Q) by lra. assert (Z : (p * r == r)%Q) by lra.
        assert (PP : (p == r)%Q) by lra. assert (P0 : ~ (p == 0)%Q) by (intros W; apply N; lra).
        assert (R : (r == 1)%Q).
        { rewrite <- (Qmult_1_r p) in Y at 2. apply (Qmult_inj_l _ _ p P0). exact Y. }
        split; lra.
      * intros [-> ->]. reflexivity.
    + split.
      * intros O. rewrite O in M. assert (X : (p * r == 0)%Q) by lra. apply Qmult_integral in X. exact X.
      * intros [Z|Z]; rewrite Z; unfold Qdiv; ring_simplify; reflexivity.
    + exact M.
Qed.

Lemma export_ok ps L M : well_paired ps -> In (L, M) ps -> exists row p r f,
  export_action_syntactic_statistics (compare_all ps) (ad_name L) = Ok row /\
  calculate_action_precision (compare_all ps) (ad_name L) = Ok p /\ calculate_action_recall (compare_all ps) (ad_name L) = Ok r /\
  f1_score p r = Ok f /\
  dict_get row "action_precision" = Some p /\ dict_get row "action_recall" = Some r /\ dict_get row "f1_score" = Some f /\
  Forall (fun kv => in_unit (snd kv)) row.
Proof.
  intros W I. destruct (action_precision_spec ps L M W I) as (p & EP & UP & _).
  destruct (action_recall_spec ps L M W I) as (r & ER & UR & _). destruct (f1_ok p r UP UR) as (f & EF & UF & _).
  destruct (compare_stored ps L M W I) as (S1 & S2 & S3 & S4).
  unfold export_action_syntactic_statistics. rewrite EP, ER; cbn [bind]. rewrite EF; cbn [bind]. rewrite S1, S2, S3, S4.
  destruct (precision_ok (to_set (ad_pre L)) (to_set (ad_pre M))) as (q1 & -> & U1 & _); cbn [bind].
  destruct (precision_ok (to_set (ad_eff L)) (to_set (ad_eff M))) as (q2 & -> & U2 & _); cbn [bind].
  destruct (recall_ok (to_set (ad_pre L)) (to_set (ad_pre M))) as (q3 & -> & U3 & _); try apply to_set_NoDup; cbn [bind].
  destruct (recall_ok (to_set (ad_eff L)) (to_set (ad_eff M))) as (q4 & -> & U4 & _); try apply to_set_NoDup; cbn [bind].
  do 4 eexists. split; [reflexivity|]. split; [exact eq_refl|]. split; [exact eq_refl|]. split; [exact EF|].
  split; [reflexivity|]. split; [reflexivity|]. split; [reflexivity|].
  repeat (constructor; [assumption|]). constructor.
Qed.

(** ** Semantic statistics *)
Lemma count_bump d k n k' : count_of (bump d k n) k' = count_of d k' + (if eq_dec k' k then n else 0).
Proof.
  unfold bump. unfold count_of at 1. rewrite dict_get_set. destruct (eq_dec k' k) as [->|]; [reflexivity|].
  fold (count_of d k'). lia.
Qed.
Lemma bump_keys d k n k' : In k' (dict_keys (bump d k n)) <-> k' = k \/ In k' (dict_keys d).
Proof. unfold bump. apply dict_set_keys_In. Qed.
Lemma bump_NoDup d k n : NoDup (dict_keys d) -> NoDup (dict_keys (bump d k n)).
Proof. apply dict_set_keys_NoDup. Qed.

Lemma cpr_gen fn fp tp P R : NoDup (dict_keys tp) -> exists P' R',
  fold_res (fun acc kv =>
              let '(precision, recall) := acc in
              let '(a, n) := (kv : string * nat) in
              if n =? 0 then
                Ok (dict_set precision a (if count_of fp a =? 0 then 1%Q else 0%Q), dict_set recall a 0%Q)
              else
                let* p := py_div n (n + count_of fp a) in
                let* r := py_div n (n + count_of fn a) in
                Ok (dict_set precision a p, dict_set recall a r)) tp (P, R) = Ok (P', R') /\
  (forall a, ~ In a (dict_keys tp) -> dict_get P' a = dict_get P a /\ dict_get R' a = dict_get R a) /\
  (forall a n, In (a, n) tp -> exists p r, dict_get P' a = Some p /\ dict_get R' a = Some r /\ report n (count_of fp a) (count_of fn a) p r).
Proof.
  revert P R. induction tp as [|[a n] tp IH]; intros P R N.
  - exists P, R. split; [reflexivity|]. split; [auto|intros ? ? []].
  - inversion N as [|? ? N0 N1]; subst. cbn [fold_res].
    assert (X : exists p r, (if n =? 0 then
                Ok (dict_set P a (if count_of fp a =? 0 then 1%Q else 0%Q), dict_set R a 0%Q)
              else
                let* p := py_div n (n + count_of fp a) in
                let* r := py_div n (n + count_of fn a) in
                Ok (dict_set P a p, dict_set R a r)) = Ok (dict_set P a p, dict_set R a r) /\ report n (count_of fp a) (count_of fn a) p r).
    { destruct (n =? 0) eqn:En.
      - apply Nat.eqb_eq in En; subst. do 2 eexists; split; [reflexivity|]. split; [|split; [unfold in_unit; lra|split; [lia|]]].
        + destruct (count_of fp a =? 0); unfold in_unit; lra.
        + intros _. split; [reflexivity|]. destruct (count_of fp a =? 0) eqn:Ef; [apply Nat.eqb_eq in Ef|apply Nat.eqb_neq in Ef];
            split; try reflexivity; lia.
      - apply Nat.eqb_neq in En. destruct (py_div_ok n (n + count_of fp a)) as (p & Ep & Rp); [lia|].
        destruct (py_div_ok n (n + count_of fn a)) as (r & Er & Rr); [lia|]. exists p, r. rewrite Ep, Er. split; [reflexivity|].
        split; [apply (ratio_unit _ _ _ Rp); lia|]. split; [apply (ratio_unit _ _ _ Rr); lia|]. split; [auto|lia]. }
    destruct X as (p & r & E & RP). 
    destruct (IH (dict_set P a p) (dict_set R a r) N1) as (P' & R' & E' & K & V).
    exists P', R'. split.
    { etransitivity; [|exact E']. cbn [bind]. rewrite E. reflexivity. }
    split.
    + intros b Nb. destruct (K b) as [K1 K2]; [intros Y; apply Nb; right; exact Y|].
      rewrite K1, K2, !dict_get_set. destruct (eq_dec b a) as [->|]; [exfalso; apply Nb; left; reflexivity|auto].
    + intros b m [Y|Y]; [|apply V; exact Y]. inversion Y; subst.
      destruct (K b) as [K1 K2]; [exact N0|]. exists p, r. rewrite K1, K2, !dict_get_set_same. auto.
Qed.

Lemma cpr_ok fn fp tp : NoDup (dict_keys tp) -> exists P R, calculate_precision_recall fn fp tp = Ok (P, R) /\
  (forall a, ~ In a (dict_keys tp) -> dict_get P a = None /\ dict_get R a = None) /\
  (forall a, In a (dict_keys tp) -> exists p r, dict_get P a = Some p /\ dict_get R a = Some r /\
                                     report (count_of tp a) (count_of fp a) (count_of fn a) p r).
Proof.
  intros N. destruct (cpr_gen fn fp tp [] [] N) as (P & R & E & K & V). exists P, R. split; [exact E|]. split.
  - intros a X. destruct (K a X) as [-> ->]. auto.
  - intros a I. destruct (proj1 (dict_get_Some_iff tp a) I) as (n & G).
    destruct (V a n (dict_get_In _ _ _ G)) as (p & r & Y). exists p, r. unfold count_of at 1. rewrite G. exact Y.
Qed.

(** The counters of a fold that adds [rates_of c] for the calls that are looked at. *)
Section Fold.
Variables (call : Type) (call_name : call -> string) (rates_of : call -> option (nat * nat * nat)).
Definition fold_rates (cs : list call) (t : tallies) : tallies :=
  fold_left (fun t c => match rates_of c with None => t | Some r => add_rates t (call_name c) r end) cs t.

Definition part (i : nat) (r : nat * nat * nat) : nat :=
  match i with 0 => fst (fst r) | 1 => snd (fst r) | _ => snd r end.
Definition sum_part (i : nat) (a : string) (cs : list call) : nat :=
  list_sum (map (fun c => match rates_of c with
                          | Some r => if eq_dec a (call_name c) then part i r else 0
                          | None => 0 end) cs).
Definition looked_at (a : string) (cs : list call) : Prop := exists c, In c cs /\ call_name c = a /\ rates_of c <> None.

Lemma fold_rates_ok cs (tp fp fn : counter) : NoDup (dict_keys tp) -> let '(tp', fp', fn') := fold_rates cs (tp, fp, fn) in
  NoDup (dict_keys tp') /\ (forall a, In a (dict_keys tp') <-> In a (dict_keys tp) \/ looked_at a cs) /\
  (forall a, count_of tp' a = count_of tp a + sum_part 0 a cs) /\
  (forall a, count_of fp' a = count_of fp a + sum_part 1 a cs) /\
  (forall a, count_of fn' a = count_of fn a + sum_part 2 a cs).
Proof.
  revert tp fp fn. induction cs as [|c cs IH]; intros tp fp fn N.
  - cbn. split; [exact N|]. split; [|split; [|split]; intros a; lia].
    intros a. split; [auto|]. intros [X|(c & [] & _)]; exact X.
  - assert (SP : forall i a, sum_part i a (c :: cs) = match rates_of c with
                          | Some r => if eq_dec a (call_name c) then part i r else 0
                          | None => 0 end + sum_part i a cs) by reflexivity.
    assert (FR : fold_rates (c :: cs) (tp, fp, fn) =
                 fold_rates cs (match rates_of c with None => (tp, fp, fn) | Some r => add_rates (tp, fp, fn) (call_name c) r end))
      by reflexivity.
    rewrite FR. destruct (rates_of c) as [[[x y] z]|] eqn:E.
    + unfold add_rates. specialize (IH (bump tp (call_name c) x) (bump fp (call_name c) y) (bump fn (call_name c) z)).
      destruct (fold_rates cs _) as [[tp' fp'] fn'].
      destruct (IH (bump_NoDup _ _ _ N)) as (I1 & I2 & I3 & I4 & I5). split; [exact I1|]. split; [|split; [|split]].
      * intros a. rewrite I2, bump_keys. split.
        -- intros [[->|X]|(c' & X & Y)]; [right; exists c; split; [left; reflexivity|split; [reflexivity|congruence]]|auto|].
           right; exists c'; split; [right; exact X|exact Y].
        -- intros [X|(c' & [<-|X] & Y & Z)]; [auto|left; left; auto|]. right; exists c'; auto.
      * intros a. rewrite I3, count_bump, SP. cbn [part fst snd]. lia.
      * intros a. rewrite I4, count_bump, SP. cbn [part fst snd]. lia.
      * intros a. rewrite I5, count_bump, SP. cbn [part fst snd]. lia.
    + specialize (IH tp fp fn N). destruct (fold_rates cs (tp, fp, fn)) as [[tp' fp'] fn'].
      destruct IH as (I1 & I2 & I3 & I4 & I5). split; [exact I1|].
      split; [|split; [|split]; intros a; rewrite SP; [rewrite I3|rewrite I4|rewrite I5]; lia].
      intros a. rewrite I2. split.
      * intros [X|(c' & X & Y)]; [auto|]. right; exists c'; split; [right; exact X|exact Y].
      * intros [X|(c' & [<-|X] & Y & Z)]; [auto|congruence|]. right; exists c'; auto.
Qed.
Lemma fold_rates_eq cs tp' fp' fn' : fold_rates cs ([], [], []) = (tp', fp', fn') ->
  NoDup (dict_keys tp') /\ (forall a, In a (dict_keys tp') <-> looked_at a cs) /\
  (forall a, count_of tp' a = sum_part 0 a cs) /\ (forall a, count_of fp' a = sum_part 1 a cs) /\
  (forall a, count_of fn' a = sum_part 2 a cs).
Proof.
  intros E. pose proof (fold_rates_ok cs [] [] [] (NoDup_nil _)) as F. unfold tallies, counter in *. rewrite E in F. destruct F as (N & K & T1 & T2 & T3).
  split; [exact N|]. split; [|auto]. intros a. rewrite K. cbn. tauto.
Qed.
End Fold.

Lemma fold_left_ext {A B} (f g : A -> B -> A) l a : (forall x y, f x y = g x y) -> fold_left f l a = fold_left g l a.
Proof. intros E; revert a; induction l as [|y l IH]; intros a; simpl; [reflexivity|]. rewrite E. apply IH. Qed.

Lemma semantic_pre_ok (call : Type) (nm : call -> string) learned model acts cs :
  exists P R, calculate_preconditions_semantic_performance call nm learned model acts cs = Ok (P, R) /\
  forall a,
    (~ (In a acts /\ exists c, In c cs /\ nm c = a) -> dict_get P a = None /\ dict_get R a = None) /\
    (In a acts -> (exists c, In c cs /\ nm c = a) -> exists p r, dict_get P a = Some p /\ dict_get R a = Some r /\
       report (how_many (fun c => eqb (nm c) a && (learned c && model c)) cs)
              (how_many (fun c => eqb (nm c) a && (learned c && negb (model c))) cs)
              (how_many (fun c => eqb (nm c) a && (negb (learned c) && model c)) cs) p r).
Proof.
  unfold calculate_preconditions_semantic_performance.
  set (rt := fun c => if memb (nm c) acts then Some (rates (learned c) (model c)) else None).
  rewrite (fold_left_ext _ (fun t c => match rt c with None => t | Some r => add_rates t (nm c) r end)).
  2:{ intros t c. unfold rt. destruct (memb (nm c) acts); reflexivity. }
  match goal with |- context [fold_left ?f cs ?t] => change (fold_left f cs t) with (fold_rates call nm rt cs ([], [], [])) end.
  destruct (fold_rates call nm rt cs ([], [], [])) as [[tp fp] fn] eqn:F.
  destruct (fold_rates_eq call nm rt cs _ _ _ F) as (N & K & T1 & T2 & T3).
  destruct (cpr_ok fn fp tp N) as (P & R & E & K1 & K2). exists P, R. split; [exact E|]. intros a.
  assert (LA : looked_at call nm rt a cs <-> In a acts /\ exists c, In c cs /\ nm c = a).
  { unfold looked_at, rt. split.
    - intros (c & I & <- & X). destruct (memb (nm c) acts) eqn:M; [|congruence]. split; [apply memb_In; exact M|eauto].
    - intros (I & c & Ic & <-). exists c. split; [exact Ic|]. split; [reflexivity|]. rewrite (proj2 (memb_In _ _) I). congruence. }
  split.
  - intros X. apply K1. rewrite K, LA. tauto.
  - intros Ia Ic. destruct (K2 a) as (p & r & E1 & E2 & RP); [rewrite K; apply LA; auto|].
    exists p, r. split; [exact E1|]. split; [exact E2|].
    assert (C : forall i (f : call -> bool), (forall c, nm c = a -> part i (rates (learned c) (model c)) = if f c then 1 else 0) ->
                sum_part call nm rt i a cs = how_many (fun c => eqb (nm c) a && f c) cs).
    { intros i f Hf. unfold sum_part, how_many. clear - Ia Hf. induction cs as [|c cs IH]; [reflexivity|]. cbn [map list_sum filter].
      unfold list_sum in *; cbn [fold_right]. rewrite IH. unfold rt. destruct (eqb (nm c) a) eqn:En.
      - apply eqb_true in En. rewrite En. rewrite (proj2 (memb_In a acts) Ia).
        destruct (eq_dec a a); [|congruence]. rewrite (Hf c En). cbn [andb]. destruct (f c); reflexivity.
      - apply PreludeProofs.eqb_neq in En. cbn [andb]. destruct (memb (nm c) acts); [|reflexivity].
        destruct (eq_dec a (nm c)); [congruence|reflexivity]. }
    rewrite T1, T2, T3 in RP.
    rewrite (C 0 (fun c => learned c && model c)) in RP.
    2:{ intros c _. unfold rates. destruct (learned c), (model c); reflexivity. }
    rewrite (C 1 (fun c => learned c && negb (model c))) in RP.
    2:{ intros c _. unfold rates. destruct (learned c), (model c); reflexivity. }
    rewrite (C 2 (fun c => negb (learned c) && model c)) in RP.
    2:{ intros c _. unfold rates. destruct (learned c), (model c); reflexivity. }
    exact RP.
Qed.

Lemma how_many_zero {A} (f : A -> bool) l : how_many f l = 0 <-> forall c, In c l -> f c = false.
Proof.
  unfold how_many. induction l as [|x l IH]; simpl; [split; [intros _ c []|reflexivity]|].
  destruct (f x) eqn:E; simpl.
  - split; [discriminate|]. intros F. rewrite F in E; [discriminate|left; reflexivity].
  - rewrite IH. split; intros F c; [intros [<-|I]; auto|intros I; apply F; right; exact I].
Qed.

(** Precision 1 exactly when no tested call is applicable in the learned domain only. *)
Lemma report_precision_one tp fp fn p r : report tp fp fn p r -> ((p == 1)%Q <-> fp = 0).
Proof.
  intros (U1 & U2 & A & B). destruct tp.
  - destruct (B eq_refl) as (_ & B1 & B2). split.
    + intros O. destruct fp; [reflexivity|]. rewrite (B2 ltac:(lia)) in O. exfalso; lra.
    + auto.
  - destruct (A ltac:(lia)) as [A1 A2]. rewrite (ratio_one _ _ _ A1). lia.
Qed.
Lemma report_recall_one tp fp fn p r : report tp fp fn p r -> ((r == 1)%Q <-> fn = 0 /\ 0 < tp).
Proof.
  intros (U1 & U2 & A & B). destruct tp.
  - destruct (B eq_refl) as (B0 & _). rewrite B0. split; [intros O; exfalso; lra|intros [_ X]; lia].
  - destruct (A ltac:(lia)) as [A1 A2]. rewrite (ratio_one _ _ _ A2). lia.
Qed.

(** ** Effects under STRIPS *)
Section Strips.
Variables (call : Type) (nm : call -> string) (acts : list string) (U : list string) (before : call -> list string)
          (learned model : call -> strips_op).
Let e_rates := effects_rates call nm acts (list string) (snapshot_of U) before
                 (fun c => strips_apply (learned c)) (fun c => strips_apply (model c)).

Lemma snapshot_In s f : In f (snapshot_of U s) <-> In (fst f) U /\ memb (fst f) s = snd f.
Proof.
  unfold snapshot_of. rewrite in_map_iff. destruct f as [a v]; cbn [fst snd]. split.
  - intros (x & E & I). inversion E; subst. auto.
  - intros (I & <-). exists a. auto.
Qed.
Lemma apply_memb o s s' a : strips_apply o s = Some s' ->
  memb a s' = (memb a s && negb (memb a (op_del o))) || memb a (op_add o).
Proof.
  unfold strips_apply. destruct (forallb _ _); [|discriminate]. intros E; injection E as <-.
  apply eq_true_iff_eq. rewrite orb_true_iff, andb_true_iff, negb_true_iff, !memb_In, memb_nIn, set_union_In, set_diff_In. tauto.
Qed.
Lemma opposite_sets o s s' a v : strips_apply o s = Some s' -> memb a s = v -> memb a s' = negb v -> sets_fact o (a, negb v).
Proof.
  intros E V V'. rewrite (apply_memb _ _ _ a E) in V'. unfold sets_fact; cbn [fst snd]. destruct v; cbn [negb] in *.
  - rewrite V in V'. apply orb_false_iff in V'. destruct V' as [X Y]. cbn in X. apply negb_false_iff in X.
    split; [apply memb_In; exact X|apply memb_nIn; exact Y].
  - rewrite V in V'. cbn in V'. apply memb_In; exact V'.
Qed.

(** A literal is counted as a false positive only if the reference operator sets its opposite. *)
Lemma false_positive_contradicts c tp fp fn : e_rates c = Some (tp, fp, fn) -> 0 < fp ->
  exists f, sets_fact (learned c) f /\ sets_fact (model c) (opposite f).
Proof.
  unfold e_rates, effects_rates. destruct (negb (memb (nm c) acts)); [discriminate|].
  destruct (strips_apply (learned c) (before c)) as [s1|] eqn:E1; [|discriminate].
  destruct (strips_apply (model c) s1) as [s2|] eqn:E2; [|discriminate].
  destruct ((_ =? 0) && (_ =? 0)); [intros X; injection X as <- <- <-; lia|].
  intros X; injection X as <- <- <-. intros P.
  destruct (set_diff (set_diff (snapshot_of U s1) (snapshot_of U (before c)))
              (set_diff (snapshot_of U s2) (snapshot_of U (before c)))) as [|f l] eqn:D; [simpl in P; lia|].
  assert (I : In f (f :: l)) by (left; reflexivity). rewrite <- D in I.
  apply set_diff_In in I. destruct I as [I N]. apply set_diff_In in I. destruct I as [I Nb].
  destruct f as [a v]. rewrite snapshot_In in I, Nb. rewrite set_diff_In, !snapshot_In in N. cbn [fst snd] in *. destruct I as [IU M1].
  assert (M2 : memb a s2 = negb v).
  { destruct (Bool.bool_dec (memb a s2) v) as [Y|Y]; [exfalso; apply N; tauto|]. destruct v, (memb a s2); try reflexivity; congruence. }
  assert (M0 : memb a (before c) = negb v).
  { destruct (Bool.bool_dec (memb a (before c)) v) as [Y|Y]; [exfalso; apply Nb; tauto|]. destruct v, (memb a (before c)); try reflexivity; congruence. }
  exists (a, v). split.
  - rewrite <- (negb_involutive v). apply (opposite_sets _ _ _ _ _ E1 M0). rewrite negb_involutive. exact M1.
  - unfold opposite; cbn [fst snd]. apply (opposite_sets _ _ _ _ _ E2 M1 M2).
Qed.

Lemma rates_positive c tp fp fn : e_rates c = Some (tp, fp, fn) -> 0 < tp + fp + fn.
Proof.
  unfold e_rates, effects_rates. destruct (negb (memb (nm c) acts)); [discriminate|].
  destruct (strips_apply (learned c) (before c)) as [s1|]; [|discriminate].
  destruct (strips_apply (model c) s1) as [s2|]; [|discriminate].
  destruct ((_ =? 0) && (_ =? 0)) eqn:E; [intros X; injection X as <- <- <-; lia|].
  intros X; injection X as <- <- <-. set (x := set_diff (snapshot_of U s2) _) in *. set (y := set_diff (snapshot_of U s1) _) in *.
  pose proof (split_length x y). pose proof (split_length y x). apply andb_false_iff in E. rewrite !Nat.eqb_neq in E.
  assert (Z : length x = 0 -> length (set_inter y x) = 0).
  { intros Z. destruct x; [|discriminate Z]. apply inter_zero. intros ? _ []. }
  lia.
Qed.

(** Without contradictions every literal counts as a true positive or a false negative. *)
Lemma no_false_positive c tp fp fn : do_not_contradict (learned c) (model c) -> e_rates c = Some (tp, fp, fn) -> fp = 0.
Proof.
  intros D E. destruct fp; [reflexivity|]. destruct (false_positive_contradicts c tp (S fp) fn E) as (f & S1 & S2); [lia|].
  destruct (D f S1 S2).
Qed.

(** Identical operators: only true positives. *)
Lemma identical_rates c tp fp fn : learned c = model c -> e_rates c = Some (tp, fp, fn) -> fp = 0 /\ fn = 0.
Proof.
  intros Q. unfold e_rates, effects_rates. rewrite Q. destruct (negb (memb (nm c) acts)); [discriminate|].
  destruct (strips_apply (model c) (before c)) as [s1|] eqn:E1; [|discriminate].
  destruct (strips_apply (model c) s1) as [s2|] eqn:E2; [|discriminate].
  assert (Same : snapshot_of U s2 = snapshot_of U s1).
  { unfold snapshot_of. apply map_ext. intros a. f_equal. rewrite (apply_memb _ _ _ a E2), (apply_memb _ _ _ a E1).
    destruct (memb a (before c)), (memb a (op_del (model c))), (memb a (op_add (model c))); reflexivity. }
  rewrite Same. destruct ((_ =? 0) && (_ =? 0)); intros X; injection X as <- <- <-; [auto|].
  split; apply diff_zero; apply incl_refl.
Qed.

Lemma effects_ok cs : exists P R,
  calculate_effects_semantic_performance call nm acts (list string) (snapshot_of U) before
    (fun c => strips_apply (learned c)) (fun c => strips_apply (model c)) cs = Ok (P, R) /\
  forall a,
    (~ looked_at call nm e_rates a cs -> dict_get P a = None /\ dict_get R a = None) /\
    (looked_at call nm e_rates a cs -> exists p r, dict_get P a = Some p /\ dict_get R a = Some r /\
       report (sum_part call nm e_rates 0 a cs) (sum_part call nm e_rates 1 a cs) (sum_part call nm e_rates 2 a cs) p r).
Proof.
  unfold calculate_effects_semantic_performance.
  rewrite (fold_left_ext _ (fun t c => match e_rates c with None => t | Some r => add_rates t (nm c) r end)) by (intros; reflexivity).
  match goal with |- context [fold_left ?f cs ?t] => change (fold_left f cs t) with (fold_rates call nm e_rates cs ([], [], [])) end.
  destruct (fold_rates call nm e_rates cs ([], [], [])) as [[tp fp] fn] eqn:F.
  destruct (fold_rates_eq call nm e_rates cs _ _ _ F) as (N & K & T1 & T2 & T3).
  destruct (cpr_ok fn fp tp N) as (P & R & E & K1 & K2). exists P, R. split; [exact E|]. intros a. split.
  - intros X. apply K1. rewrite K. tauto.
  - intros X. destruct (K2 a) as (p & r & E1 & E2 & RP); [rewrite K; auto|]. exists p, r. split; [exact E1|]. split; [exact E2|].
    rewrite T1, T2, T3 in RP. exact RP.
Qed.

Lemma sum_part_zero i a cs : (forall c r, In c cs -> nm c = a -> e_rates c = Some r -> part i r = 0) -> sum_part call nm e_rates i a cs = 0.
Proof.
  intros F. unfold sum_part. apply list_sum_zero. intros c I. destruct (e_rates c) eqn:E; [|reflexivity].
  destruct (eq_dec a (nm c)) as [->|]; [|reflexivity]. apply (F c p I eq_refl E).
Qed.

Lemma looked_at_dec a cs : looked_at call nm e_rates a cs \/ ~ looked_at call nm e_rates a cs.
Proof.
  unfold looked_at. induction cs as [|c cs IH]; [right; intros (c & [] & _)|].
  destruct IH as [(c' & I & X)|N]; [left; exists c'; split; [right; exact I|exact X]|].
  destruct (eq_dec (nm c) a) as [E|E].
  - destruct (e_rates c) eqn:Er; [left; exists c; split; [left; reflexivity|split; [exact E|congruence]]|].
    right. intros (c' & [<-|I] & X & Y); [congruence|]. apply N; exists c'; auto.
  - right. intros (c' & [<-|I] & X & Y); [congruence|]. apply N; exists c'; auto.
Qed.

Lemma effects_precision_blind cs a : (forall c, In c cs -> nm c = a -> do_not_contradict (learned c) (model c)) ->
  exists P R, calculate_effects_semantic_performance call nm acts (list string) (snapshot_of U) before
    (fun c => strips_apply (learned c)) (fun c => strips_apply (model c)) cs = Ok (P, R) /\ (fst (reported P R 1 a) == 1)%Q.
Proof.
  intros D. destruct (effects_ok cs) as (P & R & E & F). exists P, R. split; [exact E|]. unfold reported; cbn [fst].
  destruct (looked_at_dec a cs) as [L|L].
  - destruct (proj2 (F a) L) as (p & r & -> & _ & RP). rewrite (report_precision_one _ _ _ _ _ RP).
    apply sum_part_zero. intros c [[x y] z] I N Er. cbn. apply (no_false_positive c x y z (D c I N) Er).
  - destruct (proj1 (F a) L) as [-> _]. reflexivity.
Qed.

Lemma effects_identical cs a : (forall c, In c cs -> nm c = a -> learned c = model c) ->
  exists P R, calculate_effects_semantic_performance call nm acts (list string) (snapshot_of U) before
    (fun c => strips_apply (learned c)) (fun c => strips_apply (model c)) cs = Ok (P, R) /\
    (fst (reported P R 1 a) == 1)%Q /\ (snd (reported P R 1 a) == 1)%Q.
Proof.
  intros D. destruct (effects_ok cs) as (P & R & E & F). exists P, R. split; [exact E|]. unfold reported; cbn [fst snd].
  destruct (looked_at_dec a cs) as [L|L].
  - destruct (proj2 (F a) L) as (p & r & -> & -> & RP).
    rewrite (report_precision_one _ _ _ _ _ RP), (report_recall_one _ _ _ _ _ RP).
    assert (Z1 : sum_part call nm e_rates 1 a cs = 0).
    { apply sum_part_zero. intros c [[x y] z] I N Er. cbn. apply (identical_rates c x y z (D c I N) Er). }
    assert (Z2 : sum_part call nm e_rates 2 a cs = 0).
    { apply sum_part_zero. intros c [[x y] z] I N Er. cbn. apply (identical_rates c x y z (D c I N) Er). }
    split; [exact Z1|]. split; [exact Z2|]. destruct (Nat.eq_dec (sum_part call nm e_rates 0 a cs) 0) as [Z|Z]; [|lia].
    exfalso. destruct L as (c & I & N & X). destruct (e_rates c) as [[[x y] z]|] eqn:Er; [|congruence].
    destruct (identical_rates c x y z (D c I N) Er) as [-> ->]. pose proof (rates_positive c _ _ _ Er).
    unfold sum_part in Z. rewrite list_sum_zero in Z. specialize (Z c I). rewrite Er in Z. destruct (eq_dec a (nm c)); [|congruence].
    cbn in Z. lia.
  - destruct (proj1 (F a) L) as [-> ->]. split; reflexivity.
Qed.
End Strips.

(** ** Report files *)
Lemma write_row_ok {V} fields (row : list (string * V)) : incl (dict_keys row) fields ->
  exists cells, write_row fields row = Ok cells /\ length cells = length fields.
Proof.
  intros I. unfold write_row. assert (E : forallb (fun k => memb k fields) (dict_keys row) = true).
  { apply forallb_forall. intros k X. apply memb_In. apply I; exact X. }
  rewrite E. eexists; split; [reflexivity|]. apply map_length.
Qed.
Lemma write_row_raises {V} fields (row : list (string * V)) k : In k (dict_keys row) -> ~ In k fields -> write_row fields row = Err ValueError.
Proof.
  intros I N. unfold write_row. destruct (forallb _ _) eqn:E; [|reflexivity]. rewrite forallb_forall in E.
  exfalso; apply N; apply memb_In; apply E; exact I.
Qed.
