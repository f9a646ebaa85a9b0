(** * Learning statistics: proofs *)
From Verif Require Import LstatModel LstatSpec StatsProofs.
From Coq Require Import Lqa.
From Verif Require Import Prelude PreludeProofs.
Open Scope string_scope. Open Scope list_scope. Open Scope nat_scope.

(** ** Counting *)
Lemma count_names a ns c : count_of (fold_left (fun c n => bump c n 1) ns c) a = count_of c a + count_occ string_dec ns a.
Proof.
  revert c. induction ns as [|n ns IH]; intros c; cbn [fold_left count_occ]; [lia|]. rewrite IH, count_bump.
  destruct (string_dec n a) as [->|N]; destruct (eq_dec a _) as [E|E]; try congruence; lia.
Qed.
Lemma count_occ_flat {A} (f : A -> list string) l a : count_occ string_dec (flat_map f l) a = list_sum (map (fun x => count_occ string_dec (f x) a) l).
Proof. induction l as [|x l IH]; [reflexivity|]. cbn. rewrite count_occ_app, IH. reflexivity. Qed.
Lemma count_observation a o c :
  count_of (fold_left (fun c comp => match comp with Joint names => fold_left (fun c n => bump c n 1) names c | Single n => bump c n 1 end) o c) a
  = count_of c a + count_occ string_dec (calls o) a.
Proof.
  revert c. induction o as [|comp o IH]; intros c; cbn [fold_left]; [cbn; lia|]. rewrite IH. unfold calls. cbn [flat_map]. rewrite count_occ_app.
  destruct comp as [n|ns].
  - pose proof (count_names a [n] c) as X. cbn [fold_left] in X. rewrite X. lia.
  - rewrite count_names. lia.
Qed.
Lemma count_appearances used a : count_of (update_action_appearances used) a = appearances a used.
Proof.
  unfold update_action_appearances, appearances.
  assert (G : forall c, count_of (fold_left (fun c o => fold_left (fun c comp => match comp with Joint names => fold_left (fun c n => bump c n 1) names c | Single n => bump c n 1 end) o c) used c) a
              = count_of c a + count_occ string_dec (flat_map calls used) a).
  { induction used as [|o used IH]; intros c; cbn [fold_left flat_map]; [cbn; lia|]. rewrite IH, count_observation, count_occ_app. lia. }
  rewrite G. reflexivity.
Qed.
Lemma count_triplets used : list_sum (map (@length component) used) = triplets used.
Proof. unfold triplets. induction used as [|o used IH]; [reflexivity|]. cbn. rewrite app_length, <- IH. reflexivity. Qed.
Lemma filter_short {A} (f : A -> bool) l : length (filter f l) <= length l.
Proof. induction l as [|x l IH]; [reflexivity|]. cbn. destruct (f x); cbn; lia. Qed.
Lemma negative_eq l : negatives l = length l - how_many l_positive l.
Proof.
  unfold negatives, how_many. induction l as [|p l IH]; [reflexivity|]. cbn [filter length]. destruct (l_positive p); cbn [filter length negb]; [exact IH|].
  rewrite IH. pose proof (filter_short l_positive l). lia.
Qed.

(** ** Scores *)
Lemma stored_add c L M : ad_name L = ad_name M -> stored (add_action_data c L M) L M.
Proof.
  intros E. unfold stored, add_action_data; cbn [c_pre c_gt_pre c_eff c_gt_eff]. rewrite !get_set_set, E.
  destruct (eq_dec (ad_name M) (ad_name M)); [auto|congruence].
Qed.
Lemma overlap_length l t c : overlap l t c -> length c = length (set_inter (to_set l) (to_set t)).
Proof.
  intros [N H]. apply same_elements; [exact N|apply NoDup_filter, to_set_NoDup|]. intros x. rewrite set_inter_In, !to_set_In. apply H.
Qed.
Lemma distinct_length l d : distinct l d -> length d = length (to_set l).
Proof. intros [N H]. apply same_elements; [exact N|apply to_set_NoDup|]. intros x. rewrite to_set_In. apply H. Qed.
Lemma to_set_nil (l : list string) : to_set l = [] <-> l = [].
Proof.
  split; [|intros ->; reflexivity]. intros E. destruct l as [|x l]; [reflexivity|]. exfalso.
  assert (X : In x (to_set (x :: l))) by (apply to_set_In; left; reflexivity). rewrite E in X. exact X.
Qed.
Lemma precision_set l t : exists q, calculate_syntactic_precision (to_set l) (to_set t) = Ok q /\ precision_of q l t.
Proof.
  destruct (precision_ok (to_set l) (to_set t)) as (q & E & U & O & R). exists q. split; [exact E|]. split; [exact U|]. split.
  - rewrite O, incl_to_set, !to_set_nil. reflexivity.
  - intros c d C D N. rewrite (overlap_length _ _ _ C), (distinct_length _ _ D). apply R. intros Z.
    apply distinct_length in D. rewrite Z in D. destruct d; [congruence|discriminate D].
Qed.
Lemma recall_set l t : exists q, calculate_syntactic_recall (to_set l) (to_set t) = Ok q /\ recall_of q l t.
Proof.
  destruct (recall_ok (to_set l) (to_set t)) as (q & E & U & O & R); try apply to_set_NoDup. exists q. split; [exact E|]. split; [exact U|]. split.
  - rewrite O, incl_to_set. reflexivity.
  - intros c d C D N. rewrite (overlap_length _ _ _ C), (distinct_length _ _ D). apply R. intros Z.
    apply distinct_length in D. rewrite Z in D. destruct d; [congruence|discriminate D].
Qed.
Lemma joint_precision_ok c L M : stored c L M -> exists q, calculate_action_precision c (ad_name L) = Ok q /\ joint_precision q L M.
Proof.
  intros ST. unfold calculate_action_precision.
  destruct (share_ok (sum_tuples calculate_number_true_positives c (ad_name L)) (sum_tuples calculate_number_false_positives c (ad_name L))) as (q & E & U & O & R).
  exists q. split; [exact E|]. split; [exact U|]. split; [rewrite O; apply fp_zero; exact ST|].
  intros pre eff pre' eff' C T P. rewrite (learned_count _ _ _ _ _ ST T) in R. rewrite <- (common_count _ _ _ _ _ ST C). auto.
Qed.
Lemma joint_recall_ok c L M : stored c L M -> exists q, calculate_action_recall c (ad_name L) = Ok q /\ joint_recall q L M.
Proof.
  intros ST. unfold calculate_action_recall.
  destruct (share_ok (sum_tuples calculate_number_true_positives c (ad_name L)) (sum_tuples calculate_number_false_negatives c (ad_name L))) as (q & E & U & O & R).
  exists q. split; [exact E|]. split; [exact U|]. split; [rewrite O; apply fn_zero; exact ST|].
  intros pre eff pre' eff' C T P. rewrite (reference_count _ _ _ _ _ ST T) in R. rewrite <- (common_count _ _ _ _ _ ST C). auto.
Qed.
Lemma exported c (l a : action) : a_name l = a_name a -> exists pp ep pr er ap ar f,
  export_action_syntactic_statistics (add_action_data c (compared l) (compared a)) (a_name l) =
    Ok [("preconditions_precision", pp); ("effects_precision", ep); ("preconditions_recall", pr); ("effects_recall", er);
        ("action_precision", ap); ("action_recall", ar); ("f1_score", f)] /\ right_scores l a pp ep pr er ap ar f.
Proof.
  intros EN. pose proof (stored_add c (compared l) (compared a) EN) as ST. set (c' := add_action_data c (compared l) (compared a)) in *.
  destruct (joint_precision_ok _ _ _ ST) as (ap & EP & JP). destruct (joint_recall_ok _ _ _ ST) as (ar & ER & JR).
  destruct (f1_ok ap ar (proj1 JP) (proj1 JR)) as (f & EF & UF & _ & _ & HF). cbn [ad_name compared] in EP, ER.
  destruct ST as (S1 & S2 & S3 & S4). cbn [ad_name ad_pre ad_eff compared] in S1, S2, S3, S4.
  destruct (precision_set (texts (a_pre l)) (texts (a_pre a))) as (pp & E1 & P1). destruct (precision_set (texts (a_eff l)) (texts (a_eff a))) as (ep & E2 & P2).
  destruct (recall_set (texts (a_pre l)) (texts (a_pre a))) as (pr & E3 & P3). destruct (recall_set (texts (a_eff l)) (texts (a_eff a))) as (er & E4 & P4).
  unfold texts in E1, E2, E3, E4.
  exists pp, ep, pr, er, ap, ar, f. unfold export_action_syntactic_statistics. rewrite EP, ER. cbn [bind]. rewrite EF. cbn [bind].
  rewrite S1, S2, S3, S4, E1. cbn [bind]. rewrite E2. cbn [bind]. rewrite E3. cbn [bind]. rewrite E4. cbn [bind].
  split; [reflexivity|]. unfold right_scores. split; [exact P1|]. split; [exact P2|]. split; [exact P3|]. split; [exact P4|].
  split; [exact JP|]. split; [exact JR|]. split; [exact UF|exact HF].
Qed.

(** ** Rows *)
Section Manager.
Variables (to_float : string -> res Q) (pb_literals pb_functions : action -> nat) (algorithm domain_name : string) (model : domain_actions).
Notation action_row := (action_row to_float pb_literals pb_functions algorithm domain_name model).
Notation row_of := (row_of pb_literals pb_functions algorithm domain_name model).
Notation add_to_action_stats := (add_to_action_stats to_float pb_literals pb_functions algorithm domain_name model).
Hypothesis WM : well_named model.

Lemma default_fields used report policy name a time : timed to_float report time -> In (name, a) model ->
  add_default_statistic_fields to_float pb_literals pb_functions algorithm domain_name model name report policy used =
  Ok [("learning_algorithm", SText algorithm); ("policy", SText policy); ("domain_name", SText domain_name);
      ("num_trajectories", SNat (length used)); ("learning_time", SNum time); ("num_trajectory_triplets", SNat (triplets used));
      ("total_number_of_actions", SNat (length model)); ("learned_action_name", SText name);
      ("num_triplets_action_appeared", SNat (appearances name used));
      ("num_pb_literals", SNat (pb_literals a)); ("num_pb_functions", SNat (pb_functions a));
      ("num_ground_truth_positive_preconditions", SNat (positives (a_pre a)));
      ("num_ground_truth_negative_preconditions", SNat (negatives (a_pre a)));
      ("num_ground_truth_add_effects", SNat (positives (a_eff a))); ("num_ground_truth_delete_effects", SNat (negatives (a_eff a)));
      ("ground_truth_preconditions", SList (map l_repr (a_pre a))); ("ground_truth_effects", SList (map l_repr (a_eff a)))].
Proof.
  intros (r & t & -> & ET & EF) M. unfold add_default_statistic_fields. cbn [bind]. rewrite ET, EF. cbn [bind].
  rewrite (dict_In_get model name a (proj1 WM) M). cbn [bind]. rewrite count_appearances, count_triplets. reflexivity.
Qed.

Ltac columns := let k := fresh in let X := fresh in intros k X; vm_compute in X; repeat (destruct X as [<-|X]; [vm_compute; tauto|]); destruct X.
Lemma row_ok used learned report policy time c name a : well_named learned -> timed to_float report time -> In (name, a) model ->
  exists c' r, action_row learned report policy used c name a = Ok (c', r) /\ row_of used learned time policy (name, a) r.
Proof.
  intros WL TM M. unfold LstatModel.action_row. rewrite (default_fields _ _ _ _ a time TM M). unfold LstatSpec.row_of. cbn [fst snd].
  destruct (dict_get learned name) as [l|] eqn:EL.
  - pose proof (proj2 WL name l (dict_get_In _ _ _ EL)) as NL. pose proof (proj2 WM name a M) as NA.
    destruct (exported c l a (eq_trans NL (eq_sym NA))) as (pp & ep & pr & er & ap & ar & f & EX & RS). rewrite NL in EX. rewrite EX. cbn [bind].
    eexists _, _. split; [reflexivity|]. split; [|split; [|split; [|split]]].
    + unfold general_fields. rewrite <- !negative_eq. repeat split; reflexivity.
    + split; [unfold learned_fields; rewrite <- !negative_eq; repeat split; reflexivity|].
      exists pp, ep, pr, er, ap, ar, f. split; [unfold scores; repeat split; reflexivity|exact RS].
    + columns.
    + columns.
    + reflexivity.
  - cbn [bind]. eexists _, _. split; [reflexivity|]. split; [|split; [|split; [|split]]].
    + unfold general_fields. rewrite <- !negative_eq. repeat split; reflexivity.
    + split; [unfold learned_fields; rewrite <- !negative_eq; repeat split; reflexivity|unfold scores; repeat split; reflexivity].
    + columns.
    + columns.
    + reflexivity.
Qed.

Notation adder learned report policy used := (fun acc (na : string * action) =>
                 let '(c, rows, e) := acc in
                 match e with
                 | Some _ => acc
                 | None => match action_row learned report policy used c (fst na) (snd na) with
                           | Ok (c, r) => (c, rows ++ [r], None)
                           | Err x => (c, rows, Some x)
                           end
                 end).
Lemma add_gen used learned report policy time l c rows : well_named learned -> timed to_float report time -> incl l model ->
  exists c' rs, fold_left (adder learned report policy used) l (c, rows, None) = (c', rows ++ rs, None) /\ Forall2 (row_of used learned time policy) l rs.
Proof.
  intros WL TM. revert c rows. induction l as [|[name a] l IH]; intros c rows I.
  - exists c, []. rewrite app_nil_r. auto.
  - destruct (row_ok used learned report policy time c name a WL TM (I _ (or_introl eq_refl))) as (c1 & r & E & R).
    cbn [fold_left fst snd]. rewrite E. destruct (IH c1 (rows ++ [r])) as (c2 & rs & E2 & F); [intros x X; apply I; right; exact X|].
    exists c2, (r :: rs). rewrite E2, <- app_assoc. split; [reflexivity|]. constructor; assumption.
Qed.
Lemma add_ok used learned report policy time m : well_named learned -> timed to_float report time ->
  exists rs, add_to_action_stats used learned report policy m = (mk_manager (m_action m ++ rs) (m_numeric m) (m_merged_numeric m) (m_merged_action m), None) /\
             Forall2 (row_of used learned time policy) model rs.
Proof.
  intros WL TM. unfold LstatModel.add_to_action_stats.
  destruct (add_gen used learned report policy time model new_calculator [] WL TM (incl_refl _)) as (c & rs & E & F). rewrite E. exists rs. split; [reflexivity|exact F].
Qed.

(** ** Files *)
Variable show : value -> string.
Lemma write_lines_ok {V} (sh : V -> string) fields rows : Forall (fun r => incl (dict_keys r) fields) rows ->
  write_lines V sh fields rows = (map (line_of sh fields) rows, None).
Proof.
  induction rows as [|r rows IH]; intros F; [reflexivity|]. inversion F as [|? ? F1 F2]; subst. cbn [write_lines map].
  unfold write_row. assert (E : forallb (fun k => memb k fields) (dict_keys r) = true).
  { apply forallb_forall. intros k X. apply memb_In. apply F1; exact X. }
  rewrite E, (IH F2). unfold line_of. rewrite map_map. reflexivity.
Qed.
Lemma write_csv_ok {V} (sh : V -> string) fields rows name d : Forall (fun r => incl (dict_keys r) fields) rows ->
  write_csv V sh fields rows name d = (dict_set d name (mk_csv fields (map (line_of sh fields) rows)), None).
Proof. intros F. unfold write_csv. rewrite (write_lines_ok sh fields rows F). reflexivity. Qed.
Lemma set_added name f (d : directory) : file_added name f d (dict_set d name f).
Proof. split; [apply dict_get_set_same|intros n N; apply dict_get_set_other; exact N]. Qed.

(** ** Histories *)
Notation run := (run_operations to_float pb_literals pb_functions algorithm domain_name model show).
Notation rows_of := (rows_of pb_literals pb_functions algorithm domain_name model to_float).
Definition fits (m : manager) : Prop :=
  Forall (fun r : row => incl (dict_keys r) LEARNED_ACTIONS_STATS_COLUMNS) (m_action m) /\
  Forall (fun r : row => incl (dict_keys r) LEARNED_ACTIONS_STATS_COLUMNS) (m_merged_action m) /\ m_numeric m = [] /\ m_merged_numeric m = [].
Lemma rows_fit used learned time policy l rs : Forall2 (row_of used learned time policy) l rs -> Forall (fun r : row => incl (dict_keys r) LEARNED_ACTIONS_STATS_COLUMNS) rs.
Proof. induction 1 as [|na r l rs H F IH]; constructor; [|exact IH]. destruct H as (_ & _ & K & _). exact K. Qed.
Definition invariant (h : list operation * list operation) (m : manager) : Prop :=
  fits m /\ exists earlier current, Forall2 rows_of (fst h) earlier /\ Forall2 rows_of (snd h) current /\
    m_merged_action m = concat earlier /\ m_action m = concat current.
Lemma history_gen os h m d : Forall (sound to_float) os -> invariant h m ->
  exists m' d', fold_left (fun acc o => match snd acc with Some _ => acc | None => run_operation to_float pb_literals pb_functions algorithm domain_name model show (fst acc) o end) os ((m, d), None)
    = ((m', d'), None) /\ invariant (fold_left note os h) m'.
Proof.
  revert h m d. induction os as [|o os IH]; intros h m d F J; [exists m, d; split; [reflexivity|exact J]|].
  inversion F as [|? ? SO F']; subst. cbn [fold_left snd fst].
  destruct J as ((F1 & F2 & F3 & F4) & e & c & He & Hc & Ee & Ec).
  destruct o as [used learned report policy| |f i| |]; cbn [run_operation note].
  - destruct SO as (WL & time & TM). destruct (add_ok used learned report policy time m WL TM) as (rs & E & R). rewrite E.
    apply IH; [exact F'|]. split.
    + unfold fits. cbn. split; [apply Forall_app; split; [exact F1|exact (rows_fit _ _ _ _ _ _ R)]|]. auto.
    + exists e, (c ++ [rs]). cbn. split; [exact He|]. split.
      * apply Forall2_app; [exact Hc|]. constructor; [|constructor]. exists time. auto.
      * split; [exact Ee|]. rewrite concat_app, Ec. cbn. rewrite app_nil_r. reflexivity.
  - apply IH; [exact F'|]. split.
    + unfold fits, clear_statistics. cbn. split; [constructor|]. split; [apply Forall_app; auto|]. rewrite F3, F4. auto.
    + exists (e ++ c), []. unfold clear_statistics. cbn. split; [apply Forall2_app; assumption|]. split; [constructor|].
      rewrite concat_app, Ee, Ec. auto.
  - unfold export_action_learning_statistics. rewrite (write_csv_ok show _ _ _ _ F1). apply IH; [exact F'|].
    split; [unfold fits; auto|]. exists e, c. auto.
  - unfold export_all_folds_action_stats. rewrite (write_csv_ok show _ _ _ _ F2). apply IH; [exact F'|].
    split; [unfold fits; auto|]. exists e, c. auto.
  - unfold write_complete_joint_statistics. rewrite (write_csv_ok show); [|rewrite F4; constructor]. apply IH; [exact F'|].
    split; [unfold fits; auto|]. exists e, c. auto.
Qed.

Lemma history_ok os d : Forall (sound to_float) os -> exists m d' earlier current,
  run (new_manager, d) os = ((m, d'), None) /\
  Forall2 rows_of (fst (history os)) earlier /\ Forall2 rows_of (snd (history os)) current /\
  m_merged_action m = concat earlier /\ m_action m = concat current /\
  (forall f i, exists after, run_operation to_float pb_literals pb_functions algorithm domain_name model show (m, d') (Export f i) = ((m, after), None) /\
     file_added (algorithm ++ "_" ++ domain_name ++ "_action_stats_fold_" ++ decimal f ++ match i with Some n => "_" ++ decimal n | None => "" end ++ ".csv")%string
       (mk_csv LEARNED_ACTIONS_STATS_COLUMNS (map (line_of show LEARNED_ACTIONS_STATS_COLUMNS) (concat current))) d' after) /\
  (exists after, run_operation to_float pb_literals pb_functions algorithm domain_name model show (m, d') ExportAll = ((m, after), None) /\
     file_added "all_folds_action_learning_stats.csv"
       (mk_csv LEARNED_ACTIONS_STATS_COLUMNS (map (line_of show LEARNED_ACTIONS_STATS_COLUMNS) (concat earlier))) d' after) /\
  (exists after, run_operation to_float pb_literals pb_functions algorithm domain_name model show (m, d') WriteJoint = ((m, after), None) /\
     file_added (algorithm ++ "_all_folds_numeric_learning_stats.csv")%string (mk_csv LEARNED_ACTIONS_STATS_COLUMNS []) d' after).
Proof.
  intros F. destruct (history_gen os ([], []) new_manager d F) as (m & d' & E & (F1 & F2 & F3 & F4) & e & c & He & Hc & Ee & Ec).
  { split; [unfold fits; cbn; auto|]. exists [], []. cbn. auto. }
  exists m, d', e, c. split; [exact E|]. split; [exact He|]. split; [exact Hc|]. split; [exact Ee|]. split; [exact Ec|].
  cbn [run_operation]. split; [|split].
  - intros f i. unfold export_action_learning_statistics. rewrite (write_csv_ok show _ _ _ _ F1). eexists; split; [reflexivity|]. rewrite <- Ec. apply set_added.
  - unfold export_all_folds_action_stats. rewrite (write_csv_ok show _ _ _ _ F2). eexists; split; [reflexivity|]. rewrite <- Ee. apply set_added.
  - unfold write_complete_joint_statistics. rewrite F4. rewrite (write_csv_ok show) by constructor. eexists; split; [reflexivity|]. apply set_added.
Qed.

(** Without a report the first action raises. *)
Lemma no_report_raises used learned policy m : model <> [] ->
  snd (add_to_action_stats used learned None policy m) = Some TypeError /\ fst (add_to_action_stats used learned None policy m) = m.
Proof.
  intros N. unfold LstatModel.add_to_action_stats.
  assert (R : forall c n a, action_row learned None policy used c n a = Err TypeError).
  { intros c n a. unfold LstatModel.action_row. destruct (dict_get learned n); reflexivity. }
  assert (G : forall l c, fold_left (adder learned None policy used) l (c, [], Some TypeError) = (c, [], Some TypeError)).
  { induction l as [|x l IH]; intros c; [reflexivity|]. cbn [fold_left]. apply IH. }
  assert (H : forall l c, l <> [] -> fold_left (adder learned None policy used) l (c, [], None) = (c, [], Some TypeError)).
  { intros [|x l] c NE; [congruence|]. cbn [fold_left]. rewrite R. apply G. }
  rewrite (H model new_calculator N). cbn. rewrite app_nil_r. destruct m; auto.
Qed.
End Manager.
