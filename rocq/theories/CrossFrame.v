(** * What a run may change, and what a fold by itself has done *)
From Verif Require Import CrossSpec CrossProofs CrossFinal FoldProofs CollectProofs EpisodeProofs TextProofs LstatProofs PreludeProofs.
Open Scope string_scope. Open Scope list_scope. Open Scope nat_scope.

Section Frame.
Variables (P B : string -> Prop).
Notation only := (changes_only P B).
Lemma only_refl r : only r r.
Proof. split; reflexivity. Qed.
Lemma only_trans r r1 r2 : only r r1 -> only r1 r2 -> only r r2.
Proof. intros (A & A') (C & C'). split; intros n N; [rewrite C, A by exact N|rewrite C', A' by exact N]; reflexivity. Qed.
Lemma only_then r o f : only r (fst o) -> (forall r1, only r1 (fst (f r1))) -> only r (fst (then_do o f)).
Proof. destruct o as [r1 [e|]]; cbn [fst then_do]; intros A F; [exact A|exact (only_trans _ _ _ A (F r1))]. Qed.
Lemma only_raising {A} r (x : res A) f : (forall a, only r (fst (f a))) -> only r (fst (raising r x f)).
Proof. destruct x; cbn [raising fst]; intros F; [apply F|apply only_refl]. Qed.
Lemma only_manager f r : only r (fst (on_manager f r)).
Proof. unfold on_manager. destruct (f _) as [m e]. split; reflexivity. Qed.
Lemma only_results f r : (forall d n, ~ P n -> dict_get (fst (f d)) n = dict_get d n) -> only r (fst (on_results f r)).
Proof. intros F. unfold on_results. specialize (F (r_results r)). destruct (f _) as [d e]. split; [exact F|reflexivity]. Qed.
Lemma csv_frame {V} (show : V -> string) fields (rows : list (list (string * V))) name d n : n <> name -> dict_get (fst (write_csv V show fields rows name d)) n = dict_get d n.
Proof. intros N. unfold write_csv. destruct (write_lines _ _ _ _) as [ls e]. cbn [fst]. apply dict_get_set_other. intros X. apply N. congruence. Qed.
End Frame.
Lemma only_weaken (P B P' B' : string -> Prop) r r' : (forall n, P n -> P' n) -> (forall n, B n -> B' n) -> changes_only P B r r' -> changes_only P' B' r r'.
Proof. intros I J (A & C). split; intros n N; [apply A|apply C]; auto. Qed.

Section Cross.
Variables (domain obs : Type).
Variables (parse_partial : string -> res domain) (parse_observation : domain -> string -> string -> res obs).
Variable learn : domain -> list obs -> res (domain * option learning_report).
Variables (to_pddl title : domain -> string) (actions_of : domain -> domain_actions) (view : obs -> observation).
Variable validate : string -> files -> list obs -> Q -> res (list (string * value)).
Variables (data : Type) (init_calculator : files -> res data) (measure : data -> string -> nat -> string -> res (rows value)).
Variable matching : files -> list string.
Variables (to_float : string -> res Q) (pb_literals pb_functions : action -> nat) (show : value -> string).
Variables (algorithm : string) (numeric : bool) (domain_name : string) (model : domain_actions) (domain_file_name policy : string).
Variables (shuffle : nat -> list nat) (fifth : nat -> nat) (sample : list string -> nat -> list string) (n_split : nat).
Notation learn_model_offline := (learn_model_offline domain obs parse_partial parse_observation learn to_pddl title actions_of view validate data measure matching
  to_float pb_literals pb_functions show algorithm numeric domain_name model domain_file_name policy).
Notation one_fold := (one_fold domain obs parse_partial parse_observation learn to_pddl title actions_of view validate data init_calculator measure matching
  to_float pb_literals pb_functions show algorithm numeric domain_name model domain_file_name policy).
Notation all_folds := (all_folds domain obs parse_partial parse_observation learn to_pddl title actions_of view validate data init_calculator measure matching
  to_float pb_literals pb_functions show algorithm numeric domain_name model domain_file_name policy).
Notation run_fold := (run_fold domain obs parse_partial parse_observation learn to_pddl title actions_of view validate data init_calculator measure matching
  to_float pb_literals pb_functions show algorithm numeric domain_name model domain_file_name policy).
Notation run_cross_validation := (run_cross_validation domain obs parse_partial parse_observation learn to_pddl title actions_of view validate data init_calculator measure matching
  to_float pb_literals pb_functions show algorithm numeric domain_name model domain_file_name policy shuffle fifth sample n_split).
Notation fold_names := (fold_names algorithm numeric domain_name).
Notation joints := [joint_solving algorithm; joint_performance algorithm numeric domain_name; joint_learning algorithm].
Notation backup_of := (backup_of algorithm).
Notation only := (fun i => changes_only (fun n => In n (fold_names i)) (backup_of i)).

Lemma learn_only calc i train test r : only i r (fst (learn_model_offline calc i train test r)).
Proof.
  unfold CrossModel.learn_model_offline. apply only_raising. intros partial. apply only_raising. intros used. apply only_raising. intros [learned rep].
  apply only_then; [apply only_manager|]. intros r1. apply only_raising. intros time. apply only_then.
  - unfold validate_learned_domain. eapply only_trans with (r1 := mk_runner (r_manager r1) (r_solving r1) (r_all_solving r1) (r_semantic r1) (r_results r1) (dict_set (r_backups r1) (backup_file domain title algorithm i learned (length used)) (to_pddl learned))).
    + split; [reflexivity|]. intros n N. cbn [r_backups]. apply dict_get_set_other. intros ->. apply N. exists (title learned), (length used). reflexivity.
    + apply only_raising. intros row. split; reflexivity.
  - intros r2. apply only_raising. intros stats. cbn zeta. eapply only_trans with (r1 := mk_runner (r_manager r2) (r_solving r2) (r_all_solving r2) (Some (match r_semantic r2 with Some old => old ++ stats | None => stats end)) (r_results r2) (r_backups r2)); [split; reflexivity|].
    apply only_then; [apply only_results|].
    + intros d n N. apply csv_frame. intros ->. apply N. left. reflexivity.
    + intros r3. apply only_then; [apply only_results|intros r4; apply only_results].
      * intros d n N. unfold export_performance, export_numeric_performance, export_semantic_performance. cbn in N. unfold performance_name in N. destruct numeric; apply csv_frame; intros ->; apply N; right; left; reflexivity.
      * intros d n N. apply csv_frame. intros ->. apply N. right. right. left. reflexivity.
Qed.
Lemma fold_only i train test common r : only i r (fst (run_fold i train test common r)).
Proof.
  unfold CrossModel.run_fold, init_semantic_performance_calculator. apply only_raising. intros calc.
  eapply only_trans with (r1 := mk_runner (r_manager r) (r_solving r) (r_all_solving r) (Some []) (r_results r) (r_backups r)); [split; reflexivity|].
  apply only_then; [apply learn_only|]. intros r1. split; reflexivity.
Qed.
Lemma one_only i train test r : only i r (fst (one_fold r i train test)).
Proof.
  unfold CrossModel.one_fold, init_semantic_performance_calculator. apply only_raising. intros calc.
  eapply only_trans with (r1 := mk_runner (r_manager r) (r_solving r) (r_all_solving r) (Some []) (r_results r) (r_backups r)); [split; reflexivity|].
  apply only_then; [apply learn_only|]. intros r1. eapply only_trans with (r1 := clear_solving r1); [split; reflexivity|apply only_manager].
Qed.
Lemma all_only folds : forall i r, changes_only (fun n => exists j, j < i + length folds /\ In n (fold_names j)) (fun n => exists j, j < i + length folds /\ backup_of j n) r (fst (all_folds i folds r)).
Proof.
  induction folds as [|[[train|] [test|]] folds IH]; intros i r; cbn [CrossModel.all_folds]; try apply only_refl.
  apply only_then.
  - eapply only_weaken; [| |apply one_only]; intros n N; exists i; (split; [cbn [length]; rewrite Nat.add_succ_r; apply Nat.lt_succ_r, Nat.le_add_r|exact N]).
  - intros r1. eapply only_weaken; [| |apply IH]; intros n (j & L & N); exists j; (split; [cbn [length]; rewrite Nat.add_succ_r; exact L|exact N]).
Qed.
Theorem run_only w r : changes_only (fun n => (exists j, In n (fold_names j)) \/ In n joints) (fun n => exists j, backup_of j n) r (fst (snd (run_cross_validation w r))).
Proof.
  unfold CrossModel.run_cross_validation. destruct (create_k_fold _ _ _ _ _ _ _ _ _ _ _ _) as [[[seen w'] e]|]; [|apply only_refl]. cbn [snd]. apply only_then.
  - eapply only_weaken; [| |apply all_only]; [intros n (j & _ & N); left; exists j; exact N|intros n (j & _ & N); exists j; exact N].
  - intros r1. destruct e; [apply only_refl|]. unfold write_joint. apply only_then; [apply only_results; intros d n N; apply csv_frame; intros ->; apply N; right; left; reflexivity|]. intros r2. destruct (r_semantic r2); [|apply only_refl].
    apply only_then; [apply only_results; intros d n N|intros r3; apply only_results; intros d n N].
    + unfold export_combined_performance, combined_file. apply csv_frame. intros ->. apply N. right. right. left. reflexivity.
    + apply csv_frame. intros ->. apply N. right. right. right. left. reflexivity.
Qed.

(** ** A fold by itself *)
Notation single_fold := (single_fold domain obs parse_partial parse_observation learn to_pddl title validate data init_calculator measure
  to_float show algorithm numeric domain_name domain_file_name policy).
Lemma csv_written {V} (sh : V -> string) fields (rs : list (list (string * V))) name d d' : write_csv V sh fields rs name d = (d', None) -> d' = dict_set d name (mk_csv fields (map (line_of sh fields) rs)).
Proof.
  unfold write_csv. destruct (write_lines V sh fields rs) as [ls e] eqn:W. intros E. injection E as <- ->. f_equal. f_equal. revert ls W. induction rs as [|r rs IH]; intros ls W; cbn [write_lines] in W; [injection W as <-; reflexivity|].
  destruct (write_row fields r) as [cells|] eqn:R; [|discriminate W]. destruct (write_lines V sh fields rs) as [ls' e'] eqn:W'. injection W as <- ->. cbn [map]. rewrite <- (IH ls' eq_refl). f_equal.
  unfold write_row in R. destruct (forallb _ _); [|discriminate R]. injection R as <-. unfold line_of. rewrite map_map. reflexivity.
Qed.
Lemma collect_used train partial used : collect_observations domain obs parse_observation matching train partial = Ok used ->
  Forall2 (fun x o => exists p t, dict_get train (x ++ ".pddl")%string = Some p /\ dict_get train (x ++ ".trajectory")%string = Some t /\ parse_observation partial p t = Ok o) (matching train) used.
Proof.
  unfold collect_observations. generalize (matching train) as l. intros l. revert used. induction l as [|x l IH]; intros used U; cbn [map_res] in U; [injection U as <-; constructor|].
  unfold read in U at 1 2. change (problem_file x) with (x ++ ".pddl")%string in U. change (trajectory_file x) with (x ++ ".trajectory")%string in U.
  destruct (dict_get train (x ++ ".pddl")%string) as [p|] eqn:GP; [|discriminate U]. cbn [bind] in U. destruct (dict_get train (x ++ ".trajectory")%string) as [t|] eqn:GT; [|discriminate U]. cbn [bind] in U.
  destruct (parse_observation partial p t) as [o|] eqn:O; [|discriminate U]. cbn [bind] in U. destruct (map_res _ l) as [us|] eqn:E; [|discriminate U]. cbn [bind] in U. injection U as <-. constructor; [exists p, t; auto|apply IH; reflexivity].
Qed.
Theorem single_done before i train test common r r' : lists_trajectories before matching -> r_solving r = [] -> run_fold i train test common r = (r', None) -> single_fold before i train test common r'.
Proof.
  intros GL RS H. unfold CrossModel.run_fold, init_semantic_performance_calculator in H.
  apply raising_Ok in H. destruct H as (calc & IC & H). apply then_do_Ok in H. destruct H as (r1 & H & E1). injection E1 as E1. unfold CrossModel.learn_model_offline in H.
  apply raising_Ok in H. destruct H as (partial & PT & H). apply raising_Ok in H. destruct H as (used & U & H). apply raising_Ok in H. destruct H as ([learned rep] & L & H).
  apply then_do_Ok in H. destruct H as (r2 & A & H). apply raising_Ok in H. destruct H as (time & T & H). apply then_do_Ok in H. destruct H as (r3 & V & H).
  apply raising_Ok in H. destruct H as (stats & M & H). cbn zeta in H.
  assert (S2 : r_semantic r2 = Some [] /\ r_solving r2 = []).
  { unfold on_manager in A. destruct (add_to_action_stats _ _ _ _ _ _ _ _ _ _ _) as [m e]. injection A as <- _. cbn [r_semantic r_solving]. auto. }
  unfold validate_learned_domain in V. apply raising_Ok in V. destruct V as (row & V & E3). injection E3 as <-. cbn [r_manager r_solving r_all_solving r_semantic r_results r_backups] in *. rewrite (proj1 S2), (proj2 S2) in H. cbn [app] in H.
  apply then_do_Ok in H. destruct H as (r4 & A4 & H). apply then_do_Ok in H. destruct H as (r5 & A5 & H).
  unfold read in PT. destruct (dict_get train domain_file_name) as [text|] eqn:G; [|discriminate PT]. cbn [bind] in PT.
  unfold on_results in A4, A5, H. cbn [r_manager r_solving r_all_solving r_semantic r_results r_backups] in *.
  destruct (export_action_learning_statistics _ _ _ _ _ _ _) as [d4 e4] eqn:W4. injection A4 as <- ->. cbn [r_manager r_solving r_all_solving r_semantic r_results r_backups] in *.
  destruct (export_performance _ _ _ _ _ _ _) as [d5 e5] eqn:W5. injection A5 as <- ->. cbn [r_manager r_solving r_all_solving r_semantic r_results r_backups] in *.
  destruct (write_statistics _ _ _ _ _ _ _) as [d6 e6] eqn:W6. injection H as <- ->. apply csv_written in W6. subst r'. unfold clear_solving. cbn [r_manager r_solving r_all_solving r_semantic r_results r_backups].
  destruct (GL train) as (G1 & G2 & G3). exists (matching train), text, partial, used, learned, rep, time, row, calc, stats.
  split; [exact G1|]. split; [exact G2|]. split; [exact G3|]. split; [exact G|]. split; [exact PT|]. split.
  { exact (collect_used train partial used U). }
  split; [exact L|]. split.
  { destruct rep as [rp|]; [|discriminate T]. destruct (dict_get rp "learning_time") as [t|] eqn:GL'; [|discriminate T]. exists rp, t. auto. }
  split; [exact V|]. split; [exact IC|]. split; [exact M|]. subst d6.
  assert (D5 : dict_get d5 (performance_name algorithm numeric domain_name (i + 1)) = Some (mk_csv (performance_columns numeric) (map (line_of show (performance_columns numeric)) stats))).
  { rewrite performance_name_eq. unfold export_performance, export_numeric_performance, export_semantic_performance in W5. unfold perf_kind, performance_columns, subject_at. clear - W5. destruct numeric; apply csv_written in W5; subst d5; apply dict_get_set_same. }
  split; [|split].
  - cbn [r_results]. rewrite dict_get_set_other; [exact D5|]. rewrite performance_name_eq. change (solving_file algorithm i None) with (name_of domain_name (subject_at algorithm Solving i)).
    intros X. apply name_inj in X. injection X as X _. unfold perf_kind in X. destruct numeric; discriminate X.
  - cbn [r_results]. change (solving_file algorithm i None) with (algorithm ++ "_problem_solving_stats_fold_" ++ decimal i ++ ".csv")%string. apply dict_get_set_same.
  - apply dict_get_set_same.
Qed.

(** ** All the folds of a cross validation *)
Lemma one_as_single i train test r r' : one_fold r i train test = (r', None) ->
  exists r1, run_fold i train test test r = (r1, None) /\ r_results r' = r_results r1 /\ r_backups r' = r_backups r1 /\ r_solving r' = [].
Proof.
  unfold CrossModel.one_fold, CrossModel.run_fold, init_semantic_performance_calculator. intros H. apply raising_Ok in H. destruct H as (calc & IC & H). apply then_do_Ok in H. destruct H as (r1 & H & E).
  rewrite IC. cbn [raising]. rewrite H. cbn [then_do]. exists (clear_solving r1). split; [reflexivity|]. unfold on_manager in E. injection E as <-. repeat split.
Qed.
Lemma single_keep before i train test common r r' : single_fold before i train test common r ->
  (forall n, In n [performance_name algorithm numeric domain_name (i + 1); (algorithm ++ "_problem_solving_stats_fold_" ++ decimal i ++ ".csv")%string] -> dict_get (r_results r') n = dict_get (r_results r) n) ->
  (forall n, backup_of i n -> dict_get (r_backups r') n = dict_get (r_backups r) n) -> single_fold before i train test common r'.
Proof.
  intros (trained & text & partial & used & learned & rep & time & solved & calc & stats & H) KR KB. exists trained, text, partial, used, learned, rep, time, solved, calc, stats.
  destruct H as (H1 & H2 & H3 & H4 & H5 & H6 & H7 & H8 & H9 & H10 & H11 & H12 & H13 & H14).
  split; [exact H1|]. split; [exact H2|]. split; [exact H3|]. split; [exact H4|]. split; [exact H5|]. split; [exact H6|]. split; [exact H7|]. split; [exact H8|]. split; [exact H9|]. split; [exact H10|]. split; [exact H11|].
  split; [rewrite KR; [exact H12|left; reflexivity]|]. split; [rewrite KR; [exact H13|right; left; reflexivity]|]. rewrite KB; [exact H14|]. exists (title learned), (length used). reflexivity.
Qed.
Lemma other_names i k n : i <> k -> In n [performance_name algorithm numeric domain_name (i + 1); (algorithm ++ "_problem_solving_stats_fold_" ++ decimal i ++ ".csv")%string] -> ~ In n (fold_names k).
Proof.
  intros N I F. unfold CrossSpec.fold_names in F. rewrite (actions_name algorithm domain_name), (solving_name algorithm domain_name), performance_name_eq in F. rewrite (solving_name algorithm domain_name), performance_name_eq in I.
  destruct I as [<-|[<-|[]]]; destruct F as [F|[F|[F|[]]]]; apply name_inj in F; unfold subject_at in F; injection F; intros; unfold perf_kind in *; try (destruct numeric; discriminate); lia.
Qed.
Lemma other_backups i k n : i <> k -> backup_of i n -> ~ backup_of k n.
Proof.
  intros N (a & x & ->) (b & y & E). apply append_inj_l in E. apply append_inj_l in E.
  apply first_under in E; [|apply decimal_no_under..]. apply decimal_inj in E. contradiction.
Qed.
Lemma later_keep before folds : forall i k train test common r, i < k -> single_fold before i train test common r -> single_fold before i train test common (fst (all_folds k folds r)).
Proof.
  induction folds as [|[[tr|] [te|]] folds IH]; intros i k train test common r L S; cbn [CrossModel.all_folds]; try exact S.
  assert (S1 : single_fold before i train test common (fst (one_fold r k tr te))).
  { destruct (one_only k tr te r) as (A & B). eapply single_keep; [exact S| |].
    - intros n I. apply A. apply (other_names i k n); [lia|exact I].
    - intros n I. apply B. apply (other_backups i k n); [lia|exact I]. }
  destruct (one_fold r k tr te) as [r1 [e|]]; cbn [then_do fst] in *; [exact S1|]. apply IH; [lia|exact S1].
Qed.
Lemma all_done before folds : lists_trajectories before matching -> forall i r r', r_solving r = [] -> all_folds i folds r = (r', None) ->
  forall j train test, nth_error folds j = Some (Some train, Some test) -> single_fold before (i + j) train test test r'.
Proof.
  intros GL. induction folds as [|[[tr|] [te|]] folds IH]; intros i r r' RS H j train test N; [destruct j; discriminate| |discriminate H..].
  cbn [CrossModel.all_folds] in H. apply then_do_Ok in H. destruct H as (r1 & H & R). destruct (one_as_single i tr te r r1 H) as (r2 & F & E1 & E2 & E3).
  destruct j as [|j]; cbn [nth_error] in N.
  - injection N as <- <-. rewrite Nat.add_0_r. assert (S2 := single_done before i tr te te r r2 GL RS F).
    assert (S1 : single_fold before i tr te te r1) by (eapply single_keep; [exact S2|intros; rewrite E1; reflexivity|intros; rewrite E2; reflexivity]).
    pose proof (later_keep before folds i (S i) tr te te r1 (Nat.lt_succ_diag_r i) S1) as L. rewrite R in L. exact L.
  - replace (i + S j) with (S i + j) by lia. exact (IH (S i) r1 r' E3 R j train test N).
Qed.
Lemma joint_only r : changes_only (fun n => In n joints) (fun _ => False) r (fst (write_joint show algorithm numeric domain_name r)).
Proof.
  unfold write_joint. apply only_then; [apply only_results; intros d n N; apply csv_frame; intros ->; apply N; left; reflexivity|]. intros r2. destruct (r_semantic r2); [|apply only_refl].
  apply only_then; [apply only_results; intros d n N|intros r3; apply only_results; intros d n N].
  - unfold export_combined_performance, combined_file. apply csv_frame. intros ->. apply N. right. left. reflexivity.
  - apply csv_frame. intros ->. apply N. right. right. left. reflexivity.
Qed.
Lemma not_joint i n : In n [performance_name algorithm numeric domain_name (i + 1); (algorithm ++ "_problem_solving_stats_fold_" ++ decimal i ++ ".csv")%string] -> ~ In n joints.
Proof.
  intros I J. rewrite (solving_name algorithm domain_name), performance_name_eq in I.
  assert (X : exists k m, k <> (if numeric then Semantic else Numeric) /\ n = name_of domain_name (subject_at algorithm k m)).
  { destruct I as [<-|[<-|[]]]; [exists (perf_kind numeric), (i + 1); split; [apply perf_kind_ok|reflexivity]|exists Solving, i; split; [destruct numeric; discriminate|reflexivity]]. }
  destruct X as (k & m & K & ->). destruct J as [J|[J|[J|[]]]].
  - exact (joint_stats_not algorithm domain_name _ k m (joint_solving_word algorithm) J).
  - exact (joint_performance_not algorithm numeric domain_name k m K J).
  - exact (joint_stats_not algorithm domain_name _ k m (joint_learning_word algorithm) J).
Qed.
Theorem run_honest before w results backups w' r : shuffles shuffle -> samples sample -> lists_trajectories before matching ->
  ready string domain_file_name matching w -> w_config _ w = NoFile ->
  let n := length (matching (w_files _ w)) in let k := if n_split =? 0 then n else n_split in 2 <= k <= n ->
  run_cross_validation w (new_runner results backups) = (w', (r, None)) ->
  exists items tests, NoDup items /\ (forall x, In x items <-> In x (matching (w_files _ w))) /\ length tests = k /\ (forall x, In x items -> in_exactly_one x tests) /\
    forall i ts, nth_error tests i = Some ts -> honest_fold domain obs parse_partial parse_observation learn to_pddl title validate data init_calculator measure
      to_float show algorithm numeric domain_name domain_file_name policy before (w_files _ w) items ts i r.
Proof.
  intros SH SA GL RD CF n k K H.
  pose proof (create_ok shuffle fifth SH string domain_file_name matching sample SA w (S (n + 0)) n_split 0 false true RD) as C. cbn zeta in C.
  assert (U : used (length (matching (w_files _ w))) 0 = n) by (unfold used; reflexivity). rewrite U in C.
  assert (FW : folds_wanted n n_split false = k) by reflexivity. rewrite FW in C.
  destruct C as (seen & w1 & items & tests & E & N & I & L & LT & F & O & _).
  - unfold possible. rewrite FW. exact K.
  - rewrite CF. exact Logic.I.
  - right. exact CF.
  - lia.
  - assert (SM : forall x, In x items <-> In x (matching (w_files _ w))) by (apply same_members; [exact N|apply RD|exact I|exact L]).
    exists items, tests. split; [exact N|]. split; [exact SM|]. split; [exact LT|]. split; [exact (O eq_refl)|]. intros i ts T.
    unfold CrossModel.run_cross_validation in H. rewrite CF in H. cbn [saved_folds] in H. fold n in H. rewrite E in H. injection H as _ H. apply then_do_Ok in H. destruct H as (r1 & A & J).
    assert (X : exists sn, nth_error seen i = Some sn /\ fold_for string (w_files _ w) domain_file_name items ts sn).
    { clear - F T. revert i T. induction F as [|a b l l' R F IH]; intros [|i] T; try discriminate; cbn [nth_error] in *; [injection T as <-; eauto|apply IH; exact T]. }
    destruct X as (sn & SN & _ & train & test & -> & HT & HR). exists train, test. split; [exact HR|]. split; [exact HT|].
    pose proof (all_done before seen GL 0 (new_runner results backups) r1 eq_refl A i train test SN) as S. cbn [Nat.add] in S.
    pose proof (joint_only r1) as (JR & JB). rewrite J in JR, JB. cbn [fst] in JR, JB. eapply single_keep; [exact S| |].
    + intros m M. apply JR. exact (not_joint i m M).
    + intros m _. apply JB. intros [].
Qed.
End Cross.
