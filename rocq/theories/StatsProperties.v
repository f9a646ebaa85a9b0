(** * Properties C40, C46, C55-C58: statistics of the learned domains and of the solving

    Only theorems; every proof is a reference to a lemma.  Specifications: StatsSpec.v, ValidateSpec.v, PerfSpec.v. *)
From Verif Require Import StatsModel StatsSpec ValidateModel ValidateSpec PerfModel PerfSpec.
From Verif Require Import StatsProofs ValidateProofs PerfProofs Prelude PreludeProofs.
Open Scope string_scope. Open Scope list_scope. Open Scope nat_scope.

(** The precision of an action never raises, lies in [0,1], is 1 exactly when no learned literal is spurious, and is the
    number of common literals over the number of learned ones (true and false positives together). *)
Theorem C40_action_precision ps L M : well_paired ps -> In (L, M) ps ->
  exists q, calculate_action_precision (compare_all ps) (ad_name L) = Ok q /\ in_unit q /\ ((q == 1)%Q <-> no_spurious L M) /\
            forall pre eff pre' eff', common_literals L M pre eff -> literals_of L pre' eff' ->
              0 < length pre' + length eff' -> is_ratio q (length pre + length eff) (length pre' + length eff').
Proof. exact (action_precision_spec ps L M). Qed.
Print Assumptions C40_action_precision.

(** The recall of an action is 1 exactly when no reference literal is missing, and is the number of common literals over
    the number of reference ones. *)
Theorem C40_action_recall ps L M : well_paired ps -> In (L, M) ps ->
  exists q, calculate_action_recall (compare_all ps) (ad_name L) = Ok q /\ in_unit q /\ ((q == 1)%Q <-> no_missing L M) /\
            forall pre eff pre' eff', common_literals L M pre eff -> literals_of M pre' eff' ->
              0 < length pre' + length eff' -> is_ratio q (length pre + length eff) (length pre' + length eff').
Proof. exact (action_recall_spec ps L M). Qed.
Print Assumptions C40_action_recall.

(** The same over the whole domain. *)
Theorem C40_domain_precision_recall ps : well_paired ps -> exists p r, domain_precision (compare_all ps) = Ok p /\
  domain_recall (compare_all ps) = Ok r /\ in_unit p /\ in_unit r /\
  ((p == 1)%Q <-> forall L M, In (L, M) ps -> no_spurious L M) /\ ((r == 1)%Q <-> forall L M, In (L, M) ps -> no_missing L M).
Proof.
  intros W; destruct (domain_precision_spec ps W) as (p & E1 & U1 & O1); destruct (domain_recall_spec ps W) as (r & E2 & U2 & O2).
  exact (ex_intro _ p (ex_intro _ r (conj E1 (conj E2 (conj U1 (conj U2 (conj O1 O2))))))).
Qed.
Print Assumptions C40_domain_precision_recall.

(** The F1 score is the harmonic mean: in [0,1], 1 iff both are 1, 0 iff one of them is 0. *)
Theorem C40_f1 p r : in_unit p -> in_unit r -> exists f, f1_score p r = Ok f /\ in_unit f /\
  ((f == 1)%Q <-> (p == 1)%Q /\ (r == 1)%Q) /\ ((f == 0)%Q <-> (p == 0)%Q \/ (r == 0)%Q) /\ (f * (p + r) == 2 * (p * r))%Q.
Proof. exact (f1_ok p r). Qed.
Print Assumptions C40_f1.

(** The exported row of a compared action: never an error, all seven values in [0,1], and the three aggregate ones are the
    functions above. *)
Theorem C40_exported_row ps L M : well_paired ps -> In (L, M) ps -> exists row p r f,
  export_action_syntactic_statistics (compare_all ps) (ad_name L) = Ok row /\
  calculate_action_precision (compare_all ps) (ad_name L) = Ok p /\ calculate_action_recall (compare_all ps) (ad_name L) = Ok r /\
  f1_score p r = Ok f /\
  dict_get row "action_precision" = Some p /\ dict_get row "action_recall" = Some r /\ dict_get row "f1_score" = Some f /\
  Forall (fun kv => in_unit (snd kv)) row.
Proof. exact (export_ok ps L M). Qed.
Print Assumptions C40_exported_row.

(** Recall over one set of literals is 1 iff nothing is missing; precision is 1 iff nothing is spurious, except that it is
    0 when nothing was learned although there was something to learn. *)
Theorem C40_set_recall learned actual : NoDup learned -> NoDup actual -> exists q, calculate_syntactic_recall learned actual = Ok q /\
  in_unit q /\ ((q == 1)%Q <-> incl actual learned) /\
  (actual <> [] -> is_ratio q (length (set_inter learned actual)) (length actual)).
Proof. exact (recall_ok learned actual). Qed.
Print Assumptions C40_set_recall.

Theorem C40_set_precision learned actual : exists q, calculate_syntactic_precision learned actual = Ok q /\
  in_unit q /\ ((q == 1)%Q <-> incl learned actual /\ (learned = [] -> actual = [])) /\
  (learned <> [] -> is_ratio q (length (set_inter learned actual)) (length learned)).
Proof. exact (precision_ok learned actual). Qed.
Print Assumptions C40_set_precision.

(** Semantic precision and recall of the preconditions: an entry for exactly the learned actions with a tested call; the
    values are the ratios of the calls applicable in both models, only in the learned one and only in the reference. *)
Theorem C40_semantic_preconditions (call : Type) (nm : call -> string) learned model acts cs :
  exists P R, calculate_preconditions_semantic_performance call nm learned model acts cs = Ok (P, R) /\
  forall a,
    (~ (In a acts /\ exists c, In c cs /\ nm c = a) -> dict_get P a = None /\ dict_get R a = None) /\
    (In a acts -> (exists c, In c cs /\ nm c = a) -> exists p r, dict_get P a = Some p /\ dict_get R a = Some r /\
       report (how_many (fun c => eqb (nm c) a && (learned c && model c)) cs)
              (how_many (fun c => eqb (nm c) a && (learned c && negb (model c))) cs)
              (how_many (fun c => eqb (nm c) a && (negb (learned c) && model c)) cs) p r).
Proof. exact (semantic_pre_ok call nm learned model acts cs). Qed.
Print Assumptions C40_semantic_preconditions.

(** What a report says: precision 1 iff no false positive; recall 1 iff no false negative and some true positive. *)
Theorem C40_report_extremes tp fp fn p r : report tp fp fn p r -> ((p == 1)%Q <-> fp = 0) /\ ((r == 1)%Q <-> fn = 0 /\ 0 < tp).
Proof. intros H; exact (conj (report_precision_one tp fp fn p r H) (report_recall_one tp fp fn p r H)). Qed.
Print Assumptions C40_report_extremes.

(** Identical operators: precision and recall of the effects are 1. *)
Theorem C40_identical_effects (U : list string) (call : Type) (nm : call -> string) (learned model : call -> strips_op) (before : call -> list string)
  (acts : list string) cs a : (forall c, In c cs -> nm c = a -> learned c = model c) ->
  exists P R, calculate_effects_semantic_performance call nm acts (list string) (snapshot_of U) before
    (fun c => strips_apply (learned c)) (fun c => strips_apply (model c)) cs = Ok (P, R) /\
    (fst (reported P R 1 a) == 1)%Q /\ (snd (reported P R 1 a) == 1)%Q.
Proof. exact (effects_identical call nm acts U before learned model cs a). Qed.
Print Assumptions C40_identical_effects.

(** The statistics row of a tested domain: for every sequence of problems with an answer, validation does not raise, each
    outcome class has its exact count, the names of its problems and its share of the classified problems, and the two
    expert counters split the unsolved problems; the fields are exactly the columns of the report. *)
Theorem C46_row time ps : Forall answered ps -> exists row, validate_domain ROW_HEADER time ps = Ok row /\
  (forall l, In l the_classes -> dict_get row l = Some (VInt (how_many (in_class l) ps)) /\
     dict_get row ("problems_" ++ l)%string = Some (VNames (map listed_name (filter (in_class l) ps))) /\
     exists q, dict_get row ("percent_" ++ l)%string = Some (VNum q) /\
       (q == percent (how_many (in_class l) ps)
                     (Nat.max 1 (how_many (fun p => match class_of p with Some _ => true | None => false end) ps)))%Q) /\
  dict_get row "validated_against_expert_plan" = Some (VInt (how_many expert_ok ps)) /\
  dict_get row "not_validated_against_expert_plan" = Some (VInt (how_many expert_bad ps)) /\
  (forall x, In x (dict_keys row) <-> In x SOLVING_STATISTICS).
Proof. exact (row_ok time ps). Qed.
Print Assumptions C46_row.

(** Every classified problem is in exactly one class: the six counters add up to the number of classified problems. *)
Theorem C46_counters_add_up ps : Forall answered ps ->
  list_sum (map (fun l => how_many (in_class l) ps) the_classes) =
  how_many (fun p => match class_of p with Some _ => true | None => false end) ps.
Proof. exact (classes_sum ps). Qed.
Print Assumptions C46_counters_add_up.

(** The percentages of the six classes sum to 100 when some problem was classified. *)
Theorem C46_percentages_sum ps total : Forall answered ps -> 0 < total ->
  total = how_many (fun p => match class_of p with Some _ => true | None => false end) ps ->
  (fold_right Qplus 0 (map (fun l => percent (how_many (in_class l) ps) total) the_classes) == 100)%Q.
Proof. intros A P E; exact (percent_sum (fun l => how_many (in_class l) ps) the_classes total P (eq_trans (classes_sum ps A) (eq_sym E))). Qed.
Print Assumptions C46_percentages_sum.

(** Writing the row into the report never raises and fills every column. *)
Theorem C46_row_written time ps : Forall answered ps -> exists row cells, validate_domain ROW_HEADER time ps = Ok row /\
  write_row SOLVING_STATISTICS row = Ok cells /\ length cells = length SOLVING_STATISTICS.
Proof.
  intros A; destruct (row_ok time ps A) as (row & E & _ & _ & _ & K).
  destruct (write_row_ok SOLVING_STATISTICS row (fun x X => proj1 (K x) X)) as (cells & W & L).
  exact (ex_intro _ row (ex_intro _ cells (conj E (conj W L)))).
Qed.
Print Assumptions C46_row_written.

(** Without an answer (empty portfolio, or the last solver reports an irrelevant outcome) the run aborts. *)
Theorem C46_unanswered_problem_raises header time ps :
  (exists p, In p ps /\ solved p = false /\ (pr_outcomes p = [] \/ exists outs, rev (pr_outcomes p) = irrelevant :: outs)) ->
  exists e, validate_domain header time ps = Err e.
Proof. intros H; destruct (run_error ps initial_stats eq_refl H) as (e & E); exists e; unfold validate_domain; rewrite E; reflexivity. Qed.
Print Assumptions C46_unanswered_problem_raises.

(** Spurious effects are invisible to the semantic precision of effects unless the reference operator undoes them: when
    the two operators never set an atom to different values, precision is 1 whatever else the learned operator adds. *)
Theorem C55_precision_blind (U : list string) (call : Type) (nm : call -> string) (learned model : call -> strips_op) (before : call -> list string)
  (acts : list string) cs a : (forall c, In c cs -> nm c = a -> do_not_contradict (learned c) (model c)) ->
  exists P R, calculate_effects_semantic_performance call nm acts (list string) (snapshot_of U) before
    (fun c => strips_apply (learned c)) (fun c => strips_apply (model c)) cs = Ok (P, R) /\ (fst (reported P R 1 a) == 1)%Q.
Proof. exact (effects_precision_blind call nm acts U before learned model cs a). Qed.
Print Assumptions C55_precision_blind.

(** A row per reference action and learned domain, written without error: single-agent calculator, then numeric. *)
Theorem C56_semantic_report_written alg actions rs : exists lines, export_rows SEMANTIC_PRECISION_STATS (semantic_run alg actions rs) = Ok lines /\
  length lines = length rs * length actions /\ forall l, In l lines -> length l = 8.
Proof. exact (semantic_written alg actions rs). Qed.
Print Assumptions C56_semantic_report_written.

Theorem C56_numeric_report_written alg actions eps rs : exists lines, export_rows NUMERIC_PERFORMANCE_STATS (numeric_run alg actions eps rs) = Ok lines /\
  length lines = length rs * length actions /\ forall l, In l lines -> length l = 10.
Proof. exact (numeric_written alg actions eps rs). Qed.
Print Assumptions C56_numeric_report_written.

(** The numeric rows are complete and each carries its own error, provided no two learned domains have the same policy and
    number of trajectories. *)
Theorem C56_numeric_rows_own_error alg actions eps rs : NoDup actions -> NoDup (map (fun r => (rq_policy r, rq_num r)) rs) ->
  numeric_run alg actions eps rs = flat_map (fun r => map (complete_row alg eps r) actions) rs.
Proof. exact (numeric_run_rows alg actions eps rs). Qed.
Print Assumptions C56_numeric_rows_own_error.

(** The multi-agent calculator can never write its combined report. *)
Theorem C56_multi_agent_report_refuted alg actions rs : rs <> [] -> actions <> [] ->
  export_rows MA_SEMANTIC_PRECISION_STATS (semantic_run alg actions rs) = Err ValueError.
Proof. exact (ma_never_written alg actions rs). Qed.
Print Assumptions C56_multi_agent_report_refuted.

(** The numeric error: a value per learned action, never negative, 0 exactly when no executed call that is applicable in
    both domains (and in which nothing is divided by zero) gets a different value. *)
Theorem C57_numeric_error (call : Type) (nm : call -> string) acts before la ma cs :
  (forall c, In c cs -> comparable (before c) (la c) (ma c)) -> exists m, calculate_effects_mse call nm acts before la ma cs = Ok m /\
  (forall a, ~ In a acts -> dict_get m a = None) /\
  forall a, In a acts -> exists q, dict_get m a = Some q /\ (0 <= q)%Q /\
    ((q == 0)%Q <-> forall c, In c cs -> nm c = a -> agrees (la c) (ma c)).
Proof. exact (effects_mse_ok call nm acts before la ma cs). Qed.
Print Assumptions C57_numeric_error.

(** Multi-agent effects: precision 1 iff no learned next state, over the joint actions all of whose members were learned,
    contains an atom that was not observed. *)
Theorem C58_ma_precision (joint : Type) members acts observed predicted (js : list joint) a :
  exists P R, ma_effects_semantic_performance joint members acts observed predicted js = Ok (P, R) /\
  ((fst (reported P R 1 a) == 1)%Q <->
   forall j p, In j js -> In a (members j) -> incl (members j) acts -> predicted j = Some p -> incl p (observed j)).
Proof. exact (ma_precision_one joint members acts observed predicted js a). Qed.
Print Assumptions C58_ma_precision.

(** Joint actions in which some agent is idle are all skipped, since [nop] is no learned action: with an idle agent in every
    step the report says precision 1 and recall 1 whatever was learned. *)
Theorem C58_idle_agents_refuted (joint : Type) members acts observed predicted (js : list joint) :
  (forall j, In j js -> exists x, In x (members j) /\ ~ In x acts) -> forall a,
  exists P R, ma_effects_semantic_performance joint members acts observed predicted js = Ok (P, R) /\ reported P R 1 a = (1%Q, 1%Q).
Proof. exact (ma_skipped joint members acts observed predicted js). Qed.
Print Assumptions C58_idle_agents_refuted.
