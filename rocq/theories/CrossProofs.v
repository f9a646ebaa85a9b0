(** * Proofs for CrossProperties.v *)
From Verif Require Import CrossSpec FoldProofs CollectProofs EpisodeProofs TextProofs LstatProofs PreludeProofs.
Open Scope string_scope. Open Scope list_scope. Open Scope nat_scope.

(** ** Names *)
Lemma first_under a b x y : no_under a = true -> no_under b = true -> (a ++ "_" ++ x)%string = (b ++ "_" ++ y)%string -> a = b.
Proof.
  revert b. induction a as [|c a IH]; intros [|d b] A B E; cbn in *; [reflexivity|..].
  - injection E as E1 E2. subst d. cbn in B. discriminate.
  - injection E as E1 E2. subst c. cbn in A. discriminate.
  - injection E as E1 E2. subst d. apply andb_true_iff in A, B. f_equal. apply IH; [apply A|apply B|exact E2].
Qed.
Definition last_word (w : string) (s : string) : Prop := exists p, s = ((p ++ "_" ++ w) ++ ".csv")%string.
Lemma last_word_inj w w' s : no_under w = true -> no_under w' = true -> last_word w s -> last_word w' s -> w = w'.
Proof. intros A B [p ->] [q E]. apply append_inj_r in E. apply under_split in E; [apply E|assumption..]. Qed.

Lemma on_manager_ok f r m : f (r_manager r) = (m, None) ->
  on_manager f r = (mk_runner m (r_solving r) (r_all_solving r) (r_semantic r) (r_results r) (r_backups r), None).
Proof. unfold on_manager. intros ->. reflexivity. Qed.
Lemma on_results_ok f r d : f (r_results r) = (d, None) ->
  on_results f r = (mk_runner (r_manager r) (r_solving r) (r_all_solving r) (r_semantic r) d (r_backups r), None).
Proof. unfold on_results. intros ->. reflexivity. Qed.

Section Cross.
Variables (domain obs : Type).
Variables (parse_partial : string -> res domain) (parse_observation : domain -> string -> string -> res obs).
Variable learn : domain -> list obs -> res (domain * option learning_report).
Variables (to_pddl title : domain -> string) (actions_of : domain -> domain_actions) (view : obs -> observation).
Variable validate : string -> files -> list obs -> Q -> res (list (string * value)).
Variables (data : Type) (init_calculator : files -> res data) (measure : data -> string -> nat -> string -> res (rows value)).
Variable matching : files -> list string.
Variables (to_float : string -> res Q) (pb_literals pb_functions : action -> nat) (show : value -> string).
Variables (algorithm : string) (numeric : bool) (domain_name : string) (model : domain_actions) (domain_file_name policy : string).

Notation learn_model_offline := (learn_model_offline domain obs parse_partial parse_observation learn to_pddl title actions_of view validate data measure matching
  to_float pb_literals pb_functions show algorithm numeric domain_name model domain_file_name policy).
Notation one_fold := (one_fold domain obs parse_partial parse_observation learn to_pddl title actions_of view validate data init_calculator measure matching
  to_float pb_literals pb_functions show algorithm numeric domain_name model domain_file_name policy).
Notation all_folds := (all_folds domain obs parse_partial parse_observation learn to_pddl title actions_of view validate data init_calculator measure matching
  to_float pb_literals pb_functions show algorithm numeric domain_name model domain_file_name policy).
Notation run_fold := (run_fold domain obs parse_partial parse_observation learn to_pddl title actions_of view validate data init_calculator measure matching
  to_float pb_literals pb_functions show algorithm numeric domain_name model domain_file_name policy).
Notation run_cross_validation := (run_cross_validation domain obs parse_partial parse_observation learn to_pddl title actions_of view validate data init_calculator measure matching
  to_float pb_literals pb_functions show algorithm numeric domain_name model domain_file_name policy).
Notation right_fold := (right_fold domain obs parse_partial parse_observation learn to_pddl actions_of view validate data init_calculator measure
  to_float pb_literals pb_functions algorithm domain_name model domain_file_name policy).
Notation tools_work := (tools_work domain obs parse_partial parse_observation learn actions_of validate data init_calculator measure to_float numeric domain_file_name policy).
Notation fold_result := (fold_result domain obs).
Notation fold_files := (fold_files domain obs to_pddl title show algorithm numeric domain_name).
Notation all_fold_files := (all_fold_files domain obs to_pddl title show algorithm numeric domain_name).
Notation performance_name := (performance_name algorithm numeric domain_name).
Notation performance_columns := (performance_columns numeric).
Notation joint_solving := (joint_solving algorithm).
Notation joint_learning := (joint_learning algorithm).
Notation joint_performance := (joint_performance algorithm numeric domain_name).
Notation written_names := (CrossSpec.written_names algorithm numeric domain_name).
Notation fr_used := (fr_used domain obs).
Notation fr_learned := (fr_learned domain obs).
Notation fr_time := (fr_time domain obs).
Notation fr_solving := (fr_solving domain obs).
Notation fr_semantic := (fr_semantic domain obs).
Notation fr_actions := (fr_actions domain obs).

Definition subject_at (k : kind) (i : nat) : subject := mk_subject k algorithm i None.
Definition perf_kind : kind := if numeric then Numeric else Semantic.
Notation nm := (name_of domain_name).
Lemma actions_name i : (algorithm ++ "_" ++ domain_name ++ "_action_stats_fold_" ++ decimal i ++ ".csv")%string = nm (subject_at Actions i).
Proof. reflexivity. Qed.
Lemma solving_name i : (algorithm ++ "_problem_solving_stats_fold_" ++ decimal i ++ ".csv")%string = nm (subject_at Solving i).
Proof. reflexivity. Qed.
Lemma performance_name_eq i : performance_name i = nm (subject_at perf_kind i).
Proof. unfold CrossSpec.performance_name, perf_kind, subject_at. destruct numeric; reflexivity. Qed.

Lemma joint_solving_word : last_word "stats" joint_solving.
Proof. exists (algorithm ++ "_all_folds_solving")%string. unfold CrossSpec.joint_solving. rewrite !app_r. reflexivity. Qed.
Lemma joint_learning_word : last_word "stats" joint_learning.
Proof. exists (algorithm ++ "_all_folds_numeric_learning")%string. unfold CrossSpec.joint_learning. rewrite !app_r. reflexivity. Qed.
Lemma joint_performance_word : last_word "performance" joint_performance.
Proof.
  unfold CrossSpec.joint_performance. destruct numeric; [exists (algorithm ++ "_" ++ domain_name ++ "combined_numeric")%string|exists (algorithm ++ "_" ++ domain_name ++ "_combined_semantic")%string];
    rewrite !app_r; reflexivity.
Qed.
Lemma subject_word k i : last_word (match k with Semantic => "performance" | _ => decimal i end) (nm (subject_at k i)).
Proof.
  pose proof (name_three domain_name (subject_at k i)) as E. destruct k; cbn [ending subject_at s_kind s_iteration] in E; unfold three in E; eexists; exact E.
Qed.
Lemma joint_stats_not s k i : last_word "stats" s -> s <> nm (subject_at k i).
Proof.
  intros W E. pose proof (subject_word k i) as X. rewrite <- E in X.
  assert (U : no_under (match k with Semantic => "performance" | _ => decimal i end) = true) by (destruct k; try reflexivity; apply decimal_no_under).
  pose proof (last_word_inj "stats" _ s eq_refl U W X) as Y. destruct k; try discriminate Y; clash.
Qed.
Lemma joint_performance_not k i : k <> (if numeric then Semantic else Numeric) -> joint_performance <> nm (subject_at k i).
Proof.
  intros K E. pose proof joint_performance_word as W. rewrite E in W. pose proof (subject_word k i) as X.
  destruct k; try (pose proof (last_word_inj "performance" _ _ eq_refl (decimal_no_under i) W X) as Y; clash).
  unfold CrossSpec.joint_performance in E. destruct numeric; [congruence|]. rewrite name_three in E. cbn [ending subject_at s_kind s_iteration prefix_of] in E. unfold three in E.
  assert (Z : (algorithm ++ "_" ++ domain_name ++ "_combined_semantic_performance.csv")%string = (((((algorithm ++ "_" ++ domain_name) ++ "_" ++ "combined") ++ "_" ++ "semantic") ++ "_" ++ "performance") ++ ".csv")%string)
    by (rewrite !app_r; reflexivity).
  rewrite Z in E. apply append_inj_r in E. apply under_split in E; [|reflexivity..]. destruct E as [E _]. apply under_split in E; [|reflexivity..]. destruct E as [E _].
  apply under_split in E; [|reflexivity..]. destruct E as [_ E]. discriminate E.
Qed.
Lemma joint_performance_solving : joint_performance <> joint_solving.
Proof. intros E. pose proof joint_performance_word as W. rewrite E in W. pose proof (last_word_inj "performance" "stats" _ eq_refl eq_refl W joint_solving_word). discriminate. Qed.
Lemma joint_performance_learning : joint_performance <> joint_learning.
Proof. intros E. pose proof joint_performance_word as W. rewrite E in W. pose proof (last_word_inj "performance" "stats" _ eq_refl eq_refl W joint_learning_word). discriminate. Qed.
Lemma joint_solving_learning : joint_solving <> joint_learning.
Proof.
  unfold CrossSpec.joint_solving, CrossSpec.joint_learning. intros E. apply append_inj_l in E. discriminate E.
Qed.
Lemma perf_kind_ok : perf_kind <> (if numeric then Semantic else Numeric).
Proof. unfold perf_kind. destruct numeric; discriminate. Qed.
Definition bname (i : nat) (f : fold_result) : string :=
  (algorithm ++ "_fold_" ++ decimal i ++ "_" ++ title (fr_learned f) ++ "_" ++ decimal (length (fr_used f)) ++ "_trajectories.pddl")%string.
Lemma bname_inj i j f g : bname i f = bname j g -> i = j.
Proof.
  unfold bname. intros E. apply append_inj_l in E. apply append_inj_l in E. apply first_under in E; [|apply decimal_no_under..]. apply decimal_inj. exact E.
Qed.

(** ** One fold *)
Definition acsv (f : fold_result) := mk_csv LEARNED_ACTIONS_STATS_COLUMNS (map (line_of show LEARNED_ACTIONS_STATS_COLUMNS) (fr_actions f)).
Definition pcsv (st : rows value) := mk_csv performance_columns (map (line_of show performance_columns) st).
Definition scsv (f : fold_result) := mk_csv SOLVING_STATISTICS [line_of show SOLVING_STATISTICS (fr_solving f)].
Definition after_fold (r : runner) (i : nat) (f : fold_result) : runner :=
  mk_runner (mk_manager [] [] (m_merged_numeric (r_manager r)) (m_merged_action (r_manager r) ++ fr_actions f)) []
    (r_all_solving r ++ [fr_solving f]) (Some (fr_semantic f))
    (dict_set (dict_set (dict_set (r_results r) (nm (subject_at Actions i)) (acsv f)) (nm (subject_at perf_kind (i + 1))) (pcsv (fr_semantic f)))
              (nm (subject_at Solving i)) (scsv f))
    (dict_set (r_backups r) (bname i f) (to_pddl (fr_learned f))).
Definition between (r : runner) : Prop := r_solving r = [] /\ m_action (r_manager r) = [] /\ m_numeric (r_manager r) = [].

Variable before : string -> string -> Prop.
Hypothesis GL : lists_trajectories before matching.
Hypothesis DN : forall x, domain_file_name <> (x ++ ".trajectory")%string.
Hypothesis WM : well_named model.
Variables (fs : files) (items : list string).
Hypothesis TW : tools_work fs items.
Hypothesis RD : forall x, In x items -> incl (both x) (map fst fs).

Lemma pddl_not_trajectory x y : (x ++ ".trajectory")%string <> (y ++ ".pddl")%string.
Proof.
  intros E. assert (A : ends_with (x ++ ".trajectory") "y" = true).
  { change (x ++ ".trajectory")%string with (x ++ (".trajector" ++ "y"))%string. rewrite <- app_r. apply append_ends. }
  rewrite E in A. clear -A. revert A. induction y as [|c y IH]; intros A; [discriminate A|]. apply IH. cbn [append ends_with] in A.
  destruct (string_dec _ _) as [F|F]; [|exact A]. exfalso. injection F as _ F. destruct y; discriminate F.
Qed.

Lemma holds_key d names n : holds_files string fs d names -> incl names (map fst fs) -> (In n (dict_keys d) <-> In n names).
Proof.
  intros H I. split.
  - intros K. destruct (dict_get d n) as [c|] eqn:G; [|apply dict_get_None in G; contradiction]. rewrite (H n) in G. destruct (memb n names) eqn:M; [apply memb_In; exact M|discriminate].
  - intros K. specialize (H n). assert (M : memb n names = true) by (apply memb_In; exact K). rewrite M in H.
    destruct (dict_get fs n) as [c|] eqn:G; [eapply dict_get_key; exact H|]. apply dict_get_None in G. exfalso. apply G. apply I. exact K.
Qed.
Lemma train_stems train tests : In domain_file_name (map fst fs) ->
  holds_files string fs train (domain_file_name :: flat_map both (filter (fun x => negb (memb x tests)) items)) ->
  forall x, In x (matching train) <-> In x items /\ ~ In x tests.
Proof.
  intros DF H x. rewrite (proj2 (proj2 (GL train)) x). rewrite (holds_key train _ _ H).
  - split.
    + intros [E|E]; [exfalso; exact (DN x E)|]. apply in_flat_map in E. destruct E as (y & Y & E). apply filter_In in Y. destruct Y as [Y M].
      destruct E as [E|[E|[]]].
      * exfalso. symmetry in E. exact (pddl_not_trajectory x y E).
      * apply append_inj_r in E. subst y. split; [exact Y|]. intros T. apply memb_In in T. rewrite T in M. discriminate.
    + intros [I N]. right. apply in_flat_map. exists x. split; [|right; left; reflexivity]. apply filter_In. split; [exact I|].
      destruct (memb x tests) eqn:M; [exfalso; apply N; apply memb_In; exact M|reflexivity].
  - intros y [<-|Y]; [exact DF|]. apply in_flat_map in Y. destruct Y as (z & Z & Y). apply filter_In in Z. apply (RD z (proj1 Z)). exact Y.
Qed.
Lemma read_train train tests n : 
  holds_files string fs train (domain_file_name :: flat_map both (filter (fun x => negb (memb x tests)) items)) ->
  In n (domain_file_name :: flat_map both (filter (fun x => negb (memb x tests)) items)) -> dict_get train n = dict_get fs n.
Proof. intros H I. rewrite (H n). replace (memb n _) with true; [reflexivity|]. symmetry. apply memb_In. exact I. Qed.

Lemma row_of_incl used learned time m rs :
  Forall2 (row_of pb_literals pb_functions algorithm domain_name model used learned time policy) m rs -> Forall (fun r => incl (dict_keys r) LEARNED_ACTIONS_STATS_COLUMNS) rs.
Proof. induction 1 as [|na r m rs H F IH]; constructor; [|exact IH]. destruct H as (_ & _ & H & _). exact H. Qed.

Lemma one_fold_ok tests train test i r : between r ->
  fold_for string fs domain_file_name items tests (Some train, Some test) ->
  exists f, right_fold before fs items tests f /\ one_fold r i train test = (after_fold r i f, None).
Proof.
  intros (B1 & B2 & B3) (IT & train' & test' & E & HT & HR). injection E as <- <-.
  destruct TW as ((text & partial & DT & PP & OB & LE) & VA & IC & ME).
  assert (DF : In domain_file_name (map fst fs)) by (eapply dict_get_key; exact DT).
  pose proof (train_stems train tests DF HR) as TS.
  assert (CO : exists used, collect_observations domain obs parse_observation matching train partial = Ok used /\
     Forall2 (fun x o => exists p t, dict_get fs (x ++ ".pddl")%string = Some p /\ dict_get fs (x ++ ".trajectory")%string = Some t /\ parse_observation partial p t = Ok o) (matching train) used).
  { unfold collect_observations. assert (G : forall l, incl l (matching train) -> exists used,
      map_res (fun stem => let* p := read train (problem_file stem) in let* t := read train (trajectory_file stem) in parse_observation partial p t) l = Ok used /\
      Forall2 (fun x o => exists p t, dict_get fs (x ++ ".pddl")%string = Some p /\ dict_get fs (x ++ ".trajectory")%string = Some t /\ parse_observation partial p t = Ok o) l used).
    { induction l as [|x l IH]; intros I; [exists []; split; [reflexivity|constructor]|].
      destruct IH as (us & E & F); [intros y Y; apply I; right; exact Y|].
      destruct (proj1 (TS x) (I x (or_introl eq_refl))) as [XI XN].
      assert (KX : In x (filter (fun x => negb (memb x tests)) items)).
      { apply filter_In. split; [exact XI|]. destruct (memb x tests) eqn:M; [exfalso; apply XN; apply memb_In; exact M|reflexivity]. }
      assert (KP : dict_get train (problem_file x) = dict_get fs (x ++ ".pddl")%string).
      { apply (read_train train tests _ HR). right. apply in_flat_map. exists x. split; [exact KX|left; reflexivity]. }
      assert (KT : dict_get train (trajectory_file x) = dict_get fs (x ++ ".trajectory")%string).
      { apply (read_train train tests _ HR). right. apply in_flat_map. exists x. split; [exact KX|right; left; reflexivity]. }
      destruct (dict_get fs (x ++ ".pddl")%string) as [p|] eqn:GP; [|apply dict_get_None in GP; exfalso; apply GP; apply (RD x XI); left; reflexivity].
      destruct (dict_get fs (x ++ ".trajectory")%string) as [t|] eqn:GT; [|apply dict_get_None in GT; exfalso; apply GT; apply (RD x XI); right; left; reflexivity].
      destruct (OB x p t XI GP GT) as [o O]. exists (o :: us). cbn [map_res]. unfold read at 1 2. rewrite KP, KT. cbn [bind]. rewrite O. cbn [bind]. rewrite E. split; [reflexivity|].
      constructor; [|exact F]. exists p, t. repeat split; assumption. }
    apply G. apply incl_refl. }
  destruct CO as (used & CE & CF). destruct (LE used) as (learned & rep & time & L & TM & WN).
  destruct (VA (to_pddl learned) (dict_set test domain_file_name (to_pddl learned)) used time) as (row & V & VI).
  destruct (IC test) as [calc IE]. destruct (ME calc (to_pddl learned) (length used)) as (stats & M & MF).
  destruct (add_ok to_float pb_literals pb_functions algorithm domain_name model WM (map view used) (actions_of learned) rep policy time (r_manager r) WN TM) as (rs & A & AF).
  set (f := mk_fold_result domain obs used learned time row stats rs). exists f. split.
  - exists (matching train), text, partial, rep, test, calc. destruct (GL train) as (G1 & G2 & _).
    split; [exact G1|]. split; [exact G2|]. split; [exact TS|]. split; [exact DT|]. split; [exact PP|]. split; [exact CF|]. split; [exact L|]. split; [exact TM|]. split; [exact HT|].
    split; [exact V|]. split; [exact IE|]. split; [exact M|]. exact AF.
  - unfold CrossModel.one_fold, init_semantic_performance_calculator. rewrite IE. cbn [raising]. unfold CrossModel.learn_model_offline.
    unfold read at 1. rewrite (read_train train tests _ HR (or_introl eq_refl)), DT. cbn [bind]. rewrite PP. cbn [raising]. rewrite CE. cbn [raising]. rewrite L. cbn [raising].
    erewrite on_manager_ok by exact A. cbn [then_do r_manager r_solving r_all_solving r_semantic r_results r_backups].
    destruct TM as (rp & t & -> & TL & TF). rewrite TL, TF. cbn [raising].
    unfold validate_learned_domain. cbn [r_manager r_solving r_all_solving r_semantic r_results r_backups]. rewrite V.
    cbn [raising then_do r_manager r_solving r_all_solving r_semantic r_results r_backups]. rewrite M. cbn [raising app].
    cbn [raising then_do r_manager r_solving r_all_solving r_semantic r_results r_backups].
    erewrite on_results_ok.
    2:{ cbn [r_results]. unfold export_action_learning_statistics. cbn [m_action]. rewrite B2. cbn [app].
        apply (write_csv_ok show LEARNED_ACTIONS_STATS_COLUMNS rs). apply (row_of_incl _ _ _ _ _ AF). }
    cbn [then_do r_manager r_solving r_all_solving r_semantic r_results r_backups].
    assert (EP : forall d, export_performance show algorithm numeric domain_name (i + 1) stats d = (dict_set d (nm (subject_at perf_kind (i + 1))) (pcsv stats), None)).
    { intros d. unfold export_performance, export_numeric_performance, export_semantic_performance, pcsv, perf_kind, CrossSpec.performance_columns in *. destruct numeric;
        rewrite (write_csv_ok show _ stats) by exact MF; reflexivity. }
    erewrite on_results_ok by apply EP. cbn [then_do r_manager r_solving r_all_solving r_semantic r_results r_backups].
    erewrite on_results_ok.
    2:{ rewrite B1. cbn [app]. unfold write_statistics. apply (write_csv_ok show SOLVING_STATISTICS [row]). constructor; [exact VI|constructor]. }
    cbn [then_do r_manager r_solving r_all_solving r_semantic r_results r_backups]. erewrite on_manager_ok by reflexivity. unfold clear_solving.
    cbn [r_manager r_solving r_all_solving r_semantic r_results r_backups].
    unfold clear_statistics. cbn [m_action m_numeric m_merged_numeric m_merged_action]. rewrite B1, B2, B3, app_nil_r. reflexivity.
Qed.

Lemma after_between r i f : between (after_fold r i f).
Proof. repeat split. Qed.

(** ** All the folds *)
Fixpoint run_through (r : runner) (i : nat) (l : list fold_result) : runner :=
  match l with [] => r | f :: l => run_through (after_fold r i f) (S i) l end.
Lemma all_folds_ok tests seen i r : between r -> Forall2 (fold_for string fs domain_file_name items) tests seen ->
  exists l, Forall2 (right_fold before fs items) tests l /\ all_folds i seen r = (run_through r i l, None).
Proof.
  intros B F. revert i r B. induction F as [|ts sn tests seen H F IH]; intros i r B; [exists []; split; [constructor|reflexivity]|].
  destruct sn as [[train|] [test|]]; try (destruct H as (_ & a & b & E & _); discriminate E).
  destruct (one_fold_ok ts train test i r B H) as (f & R & E). destruct (IH (S i) (after_fold r i f) (after_between r i f)) as (l & RL & EL).
  exists (f :: l). split; [constructor; assumption|]. cbn [CrossModel.all_folds run_through]. rewrite E. cbn [then_do]. exact EL.
Qed.

Lemma through_frame l i r n : (forall j, i <= j -> n <> nm (subject_at Actions j) /\ n <> nm (subject_at perf_kind (j + 1)) /\ n <> nm (subject_at Solving j)) ->
  dict_get (r_results (run_through r i l)) n = dict_get (r_results r) n.
Proof.
  revert i r. induction l as [|f l IH]; intros i r H; [reflexivity|]. cbn [run_through]. rewrite IH by (intros j J; apply H; lia).
  destruct (H i (le_n i)) as (H1 & H2 & H3). unfold after_fold. cbn [r_results]. rewrite !dict_get_set_other by assumption. reflexivity.
Qed.
Lemma through_frame_k l i r n : (forall j, i <= j < i + length l -> n <> nm (subject_at Actions j) /\ n <> nm (subject_at perf_kind (j + 1)) /\ n <> nm (subject_at Solving j)) ->
  dict_get (r_results (run_through r i l)) n = dict_get (r_results r) n.
Proof.
  revert i r. induction l as [|f l IH]; intros i r H; [reflexivity|]. cbn [run_through length] in *. rewrite IH by (intros j J; apply H; lia).
  destruct (H i ltac:(lia)) as (H1 & H2 & H3). unfold after_fold. cbn [r_results]. rewrite !dict_get_set_other by assumption. reflexivity.
Qed.
Lemma through_backups l i r n : (forall j f, i <= j -> n <> bname j f) -> dict_get (r_backups (run_through r i l)) n = dict_get (r_backups r) n.
Proof.
  revert i r. induction l as [|f l IH]; intros i r H; [reflexivity|]. cbn [run_through]. rewrite IH by (intros j g J; apply H; lia).
  unfold after_fold. cbn [r_backups]. apply dict_get_set_other. apply H. lia.
Qed.
Lemma kinds_differ k k' i j : k <> k' -> nm (subject_at k i) <> nm (subject_at k' j).
Proof. intros K E. apply name_inj in E. injection E as E _. exact (K E). Qed.
Lemma folds_differ k i j : i <> j -> nm (subject_at k i) <> nm (subject_at k j).
Proof. intros K E. apply name_inj in E. injection E as E. exact (K E). Qed.
Lemma perf_not_actions : perf_kind <> Actions /\ perf_kind <> Solving.
Proof. unfold perf_kind. destruct numeric; split; discriminate. Qed.

Lemma through_files l : forall i r j f, nth_error l j = Some f -> fold_files (r_results (run_through r i l)) (r_backups (run_through r i l)) (i + j) f.
Proof.
  destruct perf_not_actions as [PA PS].
  induction l as [|g l IH]; intros i r j f E; [destruct j; discriminate E|]. destruct j as [|j].
  - injection E as ->. rewrite Nat.add_0_r. cbn [run_through]. unfold CrossSpec.fold_files. rewrite actions_name, solving_name, performance_name_eq.
    rewrite !through_frame.
    + unfold after_fold. cbn [r_results]. split; [|split; [|split]].
      * rewrite dict_get_set_other by (apply kinds_differ; congruence). rewrite dict_get_set_other by (apply kinds_differ; congruence). apply dict_get_set_same.
      * rewrite dict_get_set_other by (apply kinds_differ; congruence). apply dict_get_set_same.
      * apply dict_get_set_same.
      * fold (bname i f). rewrite through_backups; [cbn [r_backups]; apply dict_get_set_same|]. intros k h K X. apply bname_inj in X. lia.
    + intros k K. split; [|split]; try (apply kinds_differ; congruence). apply folds_differ. lia.
    + intros k K. split; [|split]; try (apply kinds_differ; congruence). apply folds_differ. lia.
    + intros k K. split; [|split]; try (apply kinds_differ; congruence). apply folds_differ. lia.
  - cbn [run_through nth_error] in *. replace (i + S j) with (S i + j) by lia. apply IH. exact E.
Qed.
Lemma through_state l : forall i r, between r ->
  between (run_through r i l) /\ r_all_solving (run_through r i l) = r_all_solving r ++ map fr_solving l /\
  m_merged_numeric (r_manager (run_through r i l)) = m_merged_numeric (r_manager r) /\
  r_semantic (run_through r i l) = match rev l with [] => r_semantic r | f :: _ => Some (fr_semantic f) end.
Proof.
  induction l as [|f l IH]; intros i r B; [cbn; rewrite app_nil_r; repeat split; apply B|]. cbn [run_through map].
  destruct (IH (S i) (after_fold r i f) (after_between r i f)) as (X & Y & Z & W). split; [exact X|]. rewrite Y, Z, W. unfold after_fold. cbn [r_all_solving r_manager m_merged_numeric r_semantic].
  rewrite <- app_assoc. split; [reflexivity|]. split; [reflexivity|]. cbn [rev]. destruct (rev l); reflexivity.
Qed.

(** ** The joint files *)
Lemma right_incl ts f : right_fold before fs items ts f -> incl (dict_keys (fr_solving f)) SOLVING_STATISTICS /\ Forall (fun r => incl (dict_keys r) performance_columns) (fr_semantic f).
Proof.
  intros (tr & te & pa & rp & td & ca & _ & _ & _ & _ & _ & _ & _ & _ & _ & V & _ & M & _). destruct TW as (_ & VA & _ & ME).
  destruct (VA (to_pddl (fr_learned f)) (dict_set td domain_file_name (to_pddl (fr_learned f))) (fr_used f) (fr_time f)) as (row & E & I). rewrite V in E. injection E as ->.
  destruct (ME ca (to_pddl (fr_learned f)) (length (fr_used f))) as (st & E & F). rewrite M in E. injection E as ->. split; assumption.
Qed.

Lemma joint_ok tests l last results backups : Forall2 (right_fold before fs items) tests l -> nth_error l (length l - 1) = Some last -> l <> [] ->
  let r := run_through (new_runner results backups) 0 l in
  exists r', write_joint show algorithm numeric domain_name r = (r', None) /\ r_backups r' = r_backups r /\
    r_results r' = dict_set (dict_set (dict_set (r_results r) joint_solving (mk_csv SOLVING_STATISTICS (map (line_of show SOLVING_STATISTICS) (map fr_solving l))))
                     joint_performance (pcsv (fr_semantic last))) joint_learning (mk_csv LEARNED_ACTIONS_STATS_COLUMNS []).
Proof.
  intros F L NE r. destruct (through_state l 0 (new_runner results backups)) as (_ & S & N & P); [repeat split|]. fold r in S, N, P.
  cbn [new_runner r_all_solving r_manager new_manager m_merged_numeric app] in S, N.
  assert (P' : r_semantic r = Some (fr_semantic last)).
  { rewrite P. clear -L NE. destruct (rev l) as [|x t] eqn:R; [apply (f_equal (@rev _)) in R; rewrite rev_involutive in R; contradiction|].
    assert (E : l = rev t ++ [x]) by (rewrite <- (rev_involutive l), R; reflexivity). rewrite E in L. rewrite app_length in L. cbn [length] in L.
    rewrite nth_error_app2 in L by lia. replace (length (rev t) + 1 - 1 - length (rev t)) with 0 in L by lia. injection L as ->. reflexivity. }
  assert (I : forall f, In f l -> incl (dict_keys (fr_solving f)) SOLVING_STATISTICS /\ Forall (fun r => incl (dict_keys r) performance_columns) (fr_semantic f)).
  { clear -F TW. induction F as [|ts f tests l H F IH]; [intros g []|]. intros g [<-|G]; [exact (right_incl ts f H)|apply IH; exact G]. }
  eexists. unfold write_joint. unfold on_results at 1. unfold write_all_solving. rewrite S.
  rewrite (write_csv_ok show SOLVING_STATISTICS).
  2:{ apply Forall_forall. intros x X. apply in_map_iff in X. destruct X as (g & <- & G). apply (I g G). }
  cbn [then_do r_semantic r_results r_manager]. rewrite P'. unfold on_results at 1. cbn [r_manager r_solving r_all_solving r_semantic r_results r_backups].
  unfold export_combined_performance. fold performance_columns.
  rewrite (write_csv_ok show performance_columns) by (apply (I last); eapply nth_error_In; exact L). cbn [then_do r_manager].
  unfold on_results. cbn [r_manager r_solving r_all_solving r_semantic r_results r_backups]. unfold write_complete_joint_statistics. rewrite N.
  rewrite (write_csv_ok show LEARNED_ACTIONS_STATS_COLUMNS) by constructor. split; [reflexivity|]. split; reflexivity.
Qed.

Definition whole (tests : list (list string)) (l : list fold_result) (results : directory) (r : runner) : Prop :=
  Forall2 (right_fold before fs items) tests l /\ all_fold_files (r_results r) (r_backups r) l /\
  dict_get (r_results r) joint_solving = Some (mk_csv SOLVING_STATISTICS (map (fun f => line_of show SOLVING_STATISTICS (fr_solving f)) l)) /\
  (forall last, nth_error l (length l - 1) = Some last -> dict_get (r_results r) joint_performance = Some (pcsv (fr_semantic last))) /\
  dict_get (r_results r) joint_learning = Some (mk_csv LEARNED_ACTIONS_STATS_COLUMNS []) /\
  forall n, ~ In n (written_names (length tests)) -> dict_get (r_results r) n = dict_get results n.
Lemma whole_ok tests seen results backups : tests <> [] -> Forall2 (fold_for string fs domain_file_name items) tests seen ->
  exists l r, then_do (all_folds 0 seen (new_runner results backups)) (write_joint show algorithm numeric domain_name) = (r, None) /\ whole tests l results r.
Proof.
  intros NE F. destruct (all_folds_ok tests seen 0 (new_runner results backups)) as (l & R & E); [repeat split|exact F|].
  assert (LE : length tests = length l) by (clear -R; induction R; cbn; congruence). assert (NL : l <> []) by (intros ->; destruct tests; [contradiction|discriminate LE]).
  destruct (nth_error l (length l - 1)) as [last|] eqn:L.
  2:{ exfalso. apply nth_error_None in L. destruct l; [contradiction|cbn in L; lia]. }
  destruct (joint_ok tests l last results backups R L NL) as (r & J & BK & RS). exists l, r. rewrite E. cbn [then_do]. split; [exact J|].
  assert (JP := joint_performance_not). assert (JS := joint_stats_not joint_solving). assert (JL := joint_stats_not joint_learning).
  destruct perf_not_actions as [PA PS]. assert (PO := perf_kind_ok).
  assert (KA : Actions <> (if numeric then Semantic else Numeric)) by (destruct numeric; discriminate).
  assert (KS : Solving <> (if numeric then Semantic else Numeric)) by (destruct numeric; discriminate).
  split; [exact R|]. split; [|split; [|split; [|split]]].
  - intros i f N. pose proof (through_files l 0 (new_runner results backups) i f N) as (A & B & C & D). cbn [Nat.add] in A, B, C, D.
    unfold CrossSpec.fold_files. rewrite BK, RS. rewrite actions_name, solving_name, performance_name_eq in *.
    rewrite !dict_get_set_other; [auto|..]; apply not_eq_sym; try (apply JS; apply joint_solving_word); try (apply JL; apply joint_learning_word); apply JP; assumption.
  - rewrite RS. rewrite dict_get_set_other by (apply not_eq_sym; apply not_eq_sym; exact joint_solving_learning). rewrite dict_get_set_other by (apply not_eq_sym; exact joint_performance_solving).
    rewrite dict_get_set_same, map_map. reflexivity.
  - intros last' L'. rewrite L' in L. injection L as ->. rewrite RS. rewrite dict_get_set_other by exact joint_performance_learning. apply dict_get_set_same.
  - rewrite RS. apply dict_get_set_same.
  - intros n N. unfold CrossSpec.written_names in N. rewrite in_app_iff in N.
    assert (N1 : n <> joint_solving) by (intros ->; apply N; right; left; reflexivity).
    assert (N2 : n <> joint_performance) by (intros ->; apply N; right; right; left; reflexivity).
    assert (N3 : n <> joint_learning) by (intros ->; apply N; right; right; right; left; reflexivity).
    rewrite RS, !dict_get_set_other by assumption. rewrite through_frame_k; [reflexivity|]. intros j J2.
    assert (X : forall m, In m [nm (subject_at Actions j); nm (subject_at perf_kind (j + 1)); nm (subject_at Solving j)] -> n <> m).
    { intros m M ->. apply N. left. apply in_flat_map. exists j. split; [apply in_seq; lia|]. rewrite actions_name, solving_name, performance_name_eq. exact M. }
    split; [|split]; apply X; cbn [In]; auto.
Qed.
End Cross.
