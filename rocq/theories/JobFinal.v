(** * Proofs: the jobs of the numeric experiments, and the collection of their results *)
From Coq Require Import Lia QArith.
From Verif Require Import CluProofs CresProofs CollectProofs CollectFinal CrossProofs LstatProofs JobModel JobSpec JobProofs PreludeProofs.
Open Scope string_scope. Open Scope list_scope. Open Scope nat_scope.

Definition runnable := ["numeric_sam"; "plan_miner"; "incremental_nsam"].
Section Job.
Variables (domain obs : Type).
Variables (parse_partial : string -> res domain) (parse_observation : domain -> string -> string -> res obs).
Variable learn : nat -> domain -> list obs -> res (domain * option learning_report).
Variable mine : files -> res (domain * option learning_report).
Variables (to_pddl title : domain -> string) (actions_of : domain -> domain_actions) (view : obs -> observation).
Variable validate : string -> files -> string -> files -> list obs -> string -> res (list (string * value)).
Variables (data : Type) (init_calculator : files -> res data) (mined_calculator : files -> files -> res data).
Variable measure : string -> data -> string -> nat -> string -> res (rows value).
Variable matching : files -> list string.
Variables (to_float : string -> res Q) (pb_literals pb_functions : action -> nat) (show : value -> string).
Variables (domain_name : string) (model : domain_actions) (mined_model : files -> domain_actions) (domain_file_name : string).
Variable abort : bool.
Notation run_fold_iteration := (run_fold_iteration domain obs parse_partial parse_observation learn mine to_pddl title actions_of view validate data init_calculator mined_calculator measure matching
  to_float pb_literals pb_functions show domain_name model mined_model domain_file_name abort).
Notation run_job := (run_job domain obs parse_partial parse_observation learn mine to_pddl title actions_of view validate data init_calculator mined_calculator measure matching
  to_float pb_literals pb_functions show domain_name model mined_model domain_file_name abort).
Notation run_jobs := (run_jobs domain obs parse_partial parse_observation learn mine to_pddl title actions_of view validate data init_calculator mined_calculator measure matching
  to_float pb_literals pb_functions show domain_name model mined_model domain_file_name abort).
Notation answered := (answered domain obs parse_partial parse_observation learn mine to_pddl validate data init_calculator mined_calculator measure matching to_float model mined_model domain_file_name abort).
Notation writable := (writable domain obs actions_of).
Notation right_actions := (right_actions domain obs actions_of view pb_literals pb_functions domain_name).
Notation job_done := (job_done domain obs to_pddl title show domain_name domain_file_name).
Notation own_files := (own_files domain_name domain_file_name).


Notation iteration_ok := (iteration_ok domain obs parse_partial parse_observation learn mine to_pddl title actions_of view validate data init_calculator mined_calculator measure matching
  to_float pb_literals pb_functions show domain_name model mined_model domain_file_name abort).
Notation after := (after domain obs to_pddl title show domain_name domain_file_name).
Notation actions_for := (actions_for domain obs actions_of view to_float pb_literals pb_functions domain_name).
(** ** Many jobs *)
Definition same (ws0 ws : workspace) : Prop := ws_train ws = ws_train ws0 /\ ws_eval ws = ws_eval ws0 /\
  forall sets test, dict_get (ws_test ws0) sets = Some test -> exists t, dict_get (ws_test ws) sets = Some t /\ forall text, dict_set t domain_file_name text = dict_set test domain_file_name text.
Lemma same_refl ws : same ws ws.
Proof. split; [reflexivity|]. split; [reflexivity|]. intros sets test T. exists test. auto. Qed.
Lemma same_answered ws0 ws fold version n alg a : same ws0 ws -> answered ws0 fold version n alg a -> answered ws fold version n alg a.
Proof.
  intros (TR & EV & TE) (train & test & eval & text & partial & calc & time & H1 & H2 & H3 & H4 & H5 & H6 & H7 & H8 & H9 & H10 & H11). destruct (TE _ _ H2) as (t & T & TS). exists train, t, eval, text, partial, calc, time. rewrite TR, EV, TS.
  split; [exact H1|]. split; [exact T|]. split; [exact H3|]. split; [exact H4|]. split; [exact H5|]. split; [exact H6|]. split; [exact H7|]. split; [exact H8|]. split; [exact H9|]. split; [exact H10|exact H11].
Qed.
Lemma same_after ws0 ws fold version n alg a actions : same ws0 ws -> same ws0 (after fold version n alg a actions ws).
Proof.
  intros (TR & EV & TE). split; [exact TR|]. split; [exact EV|]. intros sets test T. unfold JobProofs.after. cbn [ws_test]. destruct (TE sets test T) as (t & G & TS). rewrite dict_get_set. destruct (eq_dec _ _) as [->|N]; [|exists t; auto].
  eexists. split; [reflexivity|]. intros text. unfold listed. rewrite G, dict_set_twice. apply TS.
Qed.
Definition version_of (alg : string) : option nat := dict_get [("numeric_sam", 3); ("plan_miner", 5); ("incremental_nsam", 19)] alg.
Lemma answered_version ws fold version n alg a : answered ws fold version n alg a -> algorithm_type version = Ok alg -> version_of alg = Some version.
Proof.
  intros (train & test & eval & text & partial & calc & time & _ & _ & _ & _ & _ & _ & (_ & LE) & _) AL. assert (V : In version [3; 5; 19]) by (destruct LE as [([-> | ->] & _)|(-> & _)]; cbn; tauto).
  destruct V as [<-|[<-|[<-|[]]]]; vm_compute in AL; apply Ok_inj in AL; subst alg; reflexivity.
Qed.
Definition results_of (report : nat -> nat -> nat -> answer domain obs) (s : subject) : rows value :=
  match version_of (s_alg s), s_iteration s with
  | Some v, Some n => let a := report (s_fold s) v n in
      match s_kind s with Solving => an_solving _ _ a | Numeric => an_numeric _ _ a | Actions => actions_for (s_alg s) a | Semantic => [] end
  | _, _ => []
  end.
Lemma perform_all_app results ss ss' d d' : perform_all value show domain_name results ss d = (d', None) -> perform_all value show domain_name results (ss ++ ss') d = perform_all value show domain_name results ss' d'.
Proof. unfold CollectSpec.perform_all. intros E. rewrite fold_left_app, E. reflexivity. Qed.
Lemma perform_all_three results s1 s2 s3 d : reportable value results [s1; s2; s3] ->
  perform_all value show domain_name results [s1; s2; s3] d =
  (dict_set (dict_set (dict_set d (name_of domain_name s1) (file_of value show results s1)) (name_of domain_name s2) (file_of value show results s2)) (name_of domain_name s3) (file_of value show results s3), None).
Proof.
  intros R. unfold CollectSpec.perform_all. cbn [fold_left snd fst]. rewrite (perform_ok value show domain_name results s1); [|intros r; apply R; cbn; tauto]. cbn [snd fst]. rewrite (perform_ok value show domain_name results s2); [|intros r; apply R; cbn; tauto]. cbn [snd fst].
  apply perform_ok. intros r. apply R. cbn. tauto.
Qed.
Notation ready := (ready_job domain obs parse_partial parse_observation learn mine to_pddl actions_of validate data init_calculator mined_calculator measure matching to_float model mined_model domain_file_name abort).
Lemma one_ready ws0 ws report j : same ws0 ws -> ready ws0 report j ->
  exists ws', run_job (j_arguments j) ws = (ws', None) /\ same ws0 ws' /\ perform_all value show domain_name (results_of report) (job_subjects j) (ws_results ws) = (ws_results ws', None) /\ reportable value (results_of report) (job_subjects j).
Proof.
  intros SM (fold & version & n & sets & alg & NR & AL & AN & WR). destruct (sets_of _ _ _ _ _ NR) as (-> & _). pose proof (same_answered _ _ _ _ _ _ _ SM AN) as AN'. destruct (iteration_ok ws fold version n alg _ AL AN' WR) as (E & RA).
  eexists. split; [unfold JobModel.run_job, stopping; rewrite NR; exact E|]. split; [apply same_after; exact SM|]. unfold job_subjects. rewrite NR, AL. cbn [map job_kinds]. pose proof (answered_version _ _ _ _ _ _ AN AL) as VO.
  assert (RE : reportable value (results_of report) [mk_subject Solving alg fold (Some n); mk_subject Numeric alg fold (Some n); mk_subject Actions alg fold (Some n)]).
  { destruct WR as (_ & _ & WS & WN). intros s r [<-|[<-|[<-|[]]]] R; unfold results_of in R; cbn [s_kind s_alg s_fold s_iteration] in R |- *; rewrite VO in R; cbn zeta in R; cbn [columns_of].
    - rewrite Forall_forall in WS. apply WS. exact R.
    - rewrite Forall_forall in WN. apply WN. exact R.
    - pose proof (row_of_incl pb_literals pb_functions alg domain_name _ "no_remove" _ _ _ _ _ RA) as X. rewrite Forall_forall in X. apply X. exact R. }
  split; [|exact RE]. rewrite perform_all_three by exact RE. f_equal. unfold JobProofs.after, exported_files. cbn [ws_results fold_left fst snd]. rewrite !job_file_name by (cbn; tauto). unfold file_of, results_of. cbn [s_kind s_alg s_fold s_iteration]. rewrite VO. reflexivity.
Qed.
Lemma jobs_run report ws0 js : Forall (ready ws0 report) js ->
  same ws0 (run_jobs js ws0) /\ perform_all value show domain_name (results_of report) (flat_map job_subjects js) (ws_results ws0) = (ws_results (run_jobs js ws0), None) /\ reportable value (results_of report) (flat_map job_subjects js).
Proof.
  unfold JobModel.run_jobs. induction js as [|j js IH] using rev_ind; intros F; [split; [apply same_refl|]; split; [reflexivity|intros s r []]|]. apply Forall_app in F as (F & FJ). inversion FJ as [|? ? RJ _]; subst. destruct (IH F) as (SM & E & RE). rewrite fold_left_app. cbn [fold_left].
  destruct (one_ready _ _ _ _ SM RJ) as (ws' & R & SM' & E' & RE'). rewrite R. cbn [fst]. split; [exact SM'|]. rewrite flat_map_app. cbn [flat_map]. rewrite app_nil_r. split; [rewrite (perform_all_app _ _ _ _ _ E); exact E'|].
  intros s r I. apply in_app_or in I as [I|I]; [apply RE; exact I|apply RE'; exact I].
Qed.
Theorem jobs_ok report ws0 js : Forall (ready ws0 report) js ->
  (forall before j rest, js = before ++ j :: rest -> snd (run_job (j_arguments j) (run_jobs before ws0)) = None) /\
  exists results, reportable value results (flat_map job_subjects js) /\ (forall j, In j js -> ran (flat_map job_subjects js) j) /\
    perform_all value show domain_name results (flat_map job_subjects js) (ws_results ws0) = (ws_results (run_jobs js ws0), None) /\
    forall j fold version n sets alg, In j js -> numeric_runner (j_arguments j) = Ok (fold, version, n, sets) -> algorithm_type version = Ok alg ->
      results (mk_subject Solving alg fold (Some n)) = an_solving _ _ (report fold version n) /\ results (mk_subject Numeric alg fold (Some n)) = an_numeric _ _ (report fold version n) /\
      right_actions alg (report fold version n) (results (mk_subject Actions alg fold (Some n))).
Proof.
  intros F. split.
  { intros before j rest ->. apply Forall_app in F as (F & FJ). inversion FJ as [|? ? RJ _]; subst. destruct (jobs_run _ _ _ F) as (SM & _). destruct (one_ready _ _ _ _ SM RJ) as (ws' & R & _). rewrite R. reflexivity. }
  exists (results_of report). destruct (jobs_run _ _ _ F) as (_ & E & RE). split; [exact RE|]. split; [|split; [exact E|]].
  - intros j I fold version n name sets NR AL k K. apply in_flat_map. exists j. split; [exact I|]. unfold job_subjects. rewrite NR, AL. cbn [map job_kinds In] in *. destruct K as [<-|[<-|[<-|[]]]]; tauto.
  - intros j fold version n sets alg I NR AL. rewrite Forall_forall in F. destruct (F j I) as (fold' & version' & n' & sets' & alg' & NR' & AL' & AN & WR). rewrite NR in NR'. apply Ok_inj in NR'. injection NR' as <- <- <- <-. rewrite AL in AL'. apply Ok_inj in AL'. subst alg'.
    pose proof (answered_version _ _ _ _ _ _ AN AL) as VO. destruct (iteration_ok ws0 fold version n alg _ AL AN WR) as (_ & RA). unfold results_of. cbn [s_kind s_alg s_fold s_iteration]. rewrite VO. split; [reflexivity|]. split; [reflexivity|exact RA].
Qed.

(** ** The collection *)
Definition named (alg : string) (row : list (string * value)) : Prop :=
  (exists v, dict_get row "learning_algorithm" = Some v /\ show v = alg) /\ (exists v n, dict_get row "num_trajectories" = Some v /\ show v = decimal n).
Definition kept_files (d : directory) : Prop := NoDup (map fst d) /\ forall name f, dict_get d name = Some f -> exists s, name = name_of domain_name s /\ In (s_alg s) runnable /\
  (s_kind s = Solving -> csv_header f = SOLVING_STATISTICS /\ forall line, In line (csv_lines f) -> exists row, line = line_of show SOLVING_STATISTICS row /\ named (s_alg s) row).
Lemma kept_set d s f : kept_files d -> In (s_alg s) runnable -> (s_kind s = Solving -> csv_header f = SOLVING_STATISTICS /\ forall line, In line (csv_lines f) -> exists row, line = line_of show SOLVING_STATISTICS row /\ named (s_alg s) row) ->
  kept_files (dict_set d (name_of domain_name s) f).
Proof.
  intros (ND & K) R H. split; [apply dict_set_keys_NoDup; exact ND|]. intros name g G. rewrite dict_get_set in G. destruct (eq_dec _ _) as [->|N]; [injection G as <-; exists s; auto|]. apply K. exact G.
Qed.
Lemma write_lines_In fields rs line : In line (fst (write_lines value show fields rs)) -> exists row, In row rs /\ line = line_of show fields row.
Proof.
  induction rs as [|r rs IH]; cbn [write_lines]; [intros []|]. unfold write_row. destruct (forallb _ _); [|intros []]. destruct (write_lines value show fields rs) as [ls e]. cbn [fst] in *. intros [<-|I]; [exists r; split; [left; reflexivity|]; unfold line_of; rewrite map_map; reflexivity|].
  destruct (IH I) as (row & R & E). exists row. split; [right; exact R|exact E].
Qed.
Lemma kept_write d s fields rs : kept_files d -> In (s_alg s) runnable -> (s_kind s = Solving -> fields = SOLVING_STATISTICS /\ Forall (named (s_alg s)) rs) -> kept_files (fst (write_csv value show fields rs (name_of domain_name s) d)).
Proof.
  intros K R H. unfold write_csv. pose proof (fun line => write_lines_In fields rs line) as W. destruct (write_lines value show fields rs) as [ls e]. cbn [fst] in *. apply kept_set; [exact K|exact R|]. intros SK. destruct (H SK) as (-> & F). cbn [csv_header csv_lines]. split; [reflexivity|]. intros line I. destruct (W line I) as (row & RI & E).
  exists row. split; [exact E|]. rewrite Forall_forall in F. apply F. exact RI.
Qed.
Lemma kept_then (x : directory * option exc) f : kept_files (fst x) -> (forall d, kept_files d -> kept_files (fst (f d))) -> kept_files (fst (and_then x f)).
Proof. intros K F. unfold and_then. destruct (snd x); [exact K|apply F; exact K]. Qed.
Lemma kept_export alg fold n solving numeric m d : kept_files d -> In alg runnable -> Forall (named alg) solving -> kept_files (fst (export_results show domain_name alg fold n solving numeric m d)).
Proof.
  intros K R F. unfold export_results. apply kept_then; [apply kept_then|].
  - apply (kept_write d (mk_subject Solving alg fold (Some n))); [exact K|exact R|]. intros _. split; [reflexivity|exact F].
  - intros d' K'. apply (kept_write d' (mk_subject Numeric alg fold (Some n))); [exact K'|exact R|discriminate].
  - intros d' K'. apply (kept_write d' (mk_subject Actions alg fold (Some n))); [exact K'|exact R|discriminate].
Qed.
Lemma kept_iteration fold version n sets ws : validator_names obs validate show -> kept_files (ws_results ws) -> kept_files (ws_results (fst (run_fold_iteration fold version n sets ws))).
Proof.
  intros VN K. destruct (in_dec Nat.eq_dec version [3; 5; 19]) as [V|V].
  2:{ destruct (iteration_missing domain obs parse_partial parse_observation learn mine to_pddl title actions_of view validate data init_calculator mined_calculator measure matching to_float pb_literals pb_functions show domain_name model mined_model domain_file_name abort ws fold version n sets V) as (e & E). rewrite E. exact K. }
  unfold JobModel.run_fold_iteration, stopping. assert (A : exists alg, algorithm_type version = Ok alg /\ In alg runnable) by (destruct V as [<-|[<-|[<-|[]]]]; eexists; (split; [reflexivity|cbn; tauto])). destruct A as (alg & AL & R). rewrite AL.
  destruct (init_calculator _) as [calc|]; [|exact K]. destruct (directory_in (ws_train ws) sets) as [train|]; [|exact K]. destruct (let* t := _ in _) as [partial|]; [|exact K]. destruct (collect_observations _ _ _ _ _ _) as [used|]; [|exact K].
  destruct (apply_learning_algorithm _ _ _ _ _ _ _ _ _ _ _ _ _ _) as [[[[learned report] calc'] reference]|]; [|exact K]. destruct (add_to_action_stats _ _ _ _ _ _ _ _ _ _ _) as [m e]. destruct (match e with Some _ => _ | None => _ end) as [time|]; [|exact K].
  destruct (directory_in (ws_test ws) sets) as [test|]; [|exact K].
  match goal with |- context [match (if abort then ?x else ?y) with _ => _ end] => destruct (if abort then x else y) as [solving|] eqn:SV end; [|exact K].
  destruct (measure _ _ _ _ _) as [numeric|]; [|exact K]. assert (F : Forall (named alg) solving).
  { destruct abort; [apply Ok_inj in SV; subst solving; constructor|]. destruct (validate _ _ _ _ _ _) as [row|] eqn:VA; [|discriminate SV]. apply Ok_inj in SV. subst solving. constructor; [|constructor]. exact (VN _ _ _ _ _ _ _ VA). }
  pose proof (kept_export alg fold n solving numeric m (ws_results ws) K R F) as X. unfold export_domain_and_backup. cbn [ws_results]. destruct (export_results _ _ _ _ _ _ _ _ _) as [d e']. exact X.
Qed.
Lemma kept_jobs js : forall ws, validator_names obs validate show -> kept_files (ws_results ws) -> kept_files (ws_results (run_jobs js ws)).
Proof.
  unfold JobModel.run_jobs. induction js as [|j js IH]; intros ws VN K; [exact K|]. cbn [fold_left]. apply IH; [exact VN|]. unfold JobModel.run_job, stopping. destruct (numeric_runner _) as [[[[fold version] n] sets]|]; [|exact K]. apply kept_iteration; assumption.
Qed.

Lemma stops std percent algorithms num_folds iterations dom d : kept_files d ->
  exists d2 e, collect_with_figures std percent algorithms num_folds iterations dom d = (d2, Some e) /\
    dict_get d2 "syntactic_performance_combined_statistics.csv" = None /\ dict_get d2 "numeric_performance_combined_statistics.csv" = None.
Proof.
  intros (ND & K). set (js := jobs num_folds iterations algorithms).
  assert (NO : forall k, dict_get d (target k false) = None).
  { intros k. destruct (dict_get d (target k false)) as [f|] eqn:G; [|reflexivity]. exfalso. destruct (K _ _ G) as (s & E & _). exact (target_not_name domain_name k false s (eq_sym E)). }
  set (nm := fun j : nat * nat * string => name_of domain_name (subject_of Solving true j)).
  destruct (forallb (fun j => match dict_get d (nm j) with Some _ => true | None => false end) js) eqn:ALL.
  2:{ assert (M : exists j, In j js /\ dict_get d (nm j) = None).
      { clear - ALL. induction js as [|j l IH]; [discriminate ALL|]. cbn [forallb] in ALL. destruct (dict_get d (nm j)) eqn:G; [|exists j; split; [left; reflexivity|exact G]]. destruct (IH ALL) as (i & I & X). exists i. split; [right; exact I|exact X]. }
      destruct M as ([[fold it] alg] & J & G). exists d, KeyError. split; [|split; [exact (NO Actions)|exact (NO Numeric)]].
      pose proof (collecting_jobs domain_name algorithms num_folds iterations None Solving false d) as C. cbn [can_exclude CollectSpec.kept CollectSpec.collecting] in C. rewrite (steps_missing d (template domain_name Solving false) (jobs num_folds iterations algorithms) [] fold it alg J G) in C.
      unfold collect_with_figures. rewrite C. reflexivity. }
  rewrite forallb_forall in ALL.
  set (results := fun s : subject => match dict_get d (name_of domain_name s) with Some f => map (fun line => combine SOLVING_STATISTICS line) (csv_lines f) | None => [] end).
  set (ss := map (subject_of Solving true) js).
  assert (SOLV : forall j, In j js -> exists f, dict_get d (nm j) = Some f /\ In (snd j) runnable /\ csv_header f = SOLVING_STATISTICS /\ forall line, In line (csv_lines f) -> exists row, line = line_of show SOLVING_STATISTICS row /\ named (snd j) row).
  { intros j J. specialize (ALL j J). destruct (dict_get d (nm j)) as [f|] eqn:G; [|discriminate ALL]. exists f. split; [reflexivity|]. destruct (K _ _ G) as (s & E & R & H). apply name_inj in E. subst s. destruct j as [[fold it] alg]. cbn [subject_of s_alg s_kind snd] in *. destruct (H eq_refl). auto. }
  assert (FILE : forall j, In j js -> dict_get d (name_of domain_name (subject_of Solving true j)) = Some (file_of string (fun s => s) results (subject_of Solving true j))).
  { intros j J. destruct (SOLV j J) as (f & G & _ & HD & LI). unfold nm in G. rewrite G. f_equal. unfold file_of. assert (SK : s_kind (subject_of Solving true j) = Solving) by (destruct j as [[? ?] ?]; reflexivity). rewrite SK. cbn [columns_of]. unfold results. rewrite G, map_map. destruct f as [h ls]. cbn [csv_header csv_lines] in *. subst h. f_equal.
    rewrite <- (map_id ls) at 1. apply map_ext_in. intros line I. symmetry. apply combine_line; [pose proof (columns_nodup Solving) as N; inversion N; assumption|]. destruct (LI line I) as (row & -> & _). unfold line_of. apply map_length. }
  assert (NI : names_itself (fun s : string => s) results ss).
  { intros s r S SK R. apply in_map_iff in S as (j & <- & J). destruct (SOLV j J) as (f & G & _ & HD & LI). unfold results in R. unfold nm in G. rewrite G in R. apply in_map_iff in R as (line & <- & I). destruct (LI line I) as (row & -> & (v & GV & SV) & (v' & m & GN & SN)).
    assert (SA : s_alg (subject_of Solving true j) = snd j) by (destruct j as [[? ?] ?]; reflexivity). rewrite SA. unfold line_of. split.
    - exists (show v). split; [|exact SV]. rewrite (get_combine SOLVING_STATISTICS (fun c => match dict_get row c with Some v => show v | None => "" end) "learning_algorithm"); [rewrite GV; reflexivity|cbn; tauto].
    - exists (show v'), m. split; [|exact SN]. rewrite (get_combine SOLVING_STATISTICS (fun c => match dict_get row c with Some v => show v | None => "" end) "num_trajectories"); [rewrite GN; reflexivity|cbn; tauto]. }
  assert (IN : forall j, In j js -> In (subject_of Solving true j) ss) by (intros j J; apply in_map; exact J).
  pose proof (collecting_ok string (fun s => s) domain_name results algorithms num_folds iterations None Solving false d (fun _ => eq_refl) FILE) as C. cbn [can_exclude CollectSpec.kept negb CollectSpec.collecting] in C. change (target Solving false) with TARGET in C. fold js in C.
  destruct (combined_results percent string (fun s => s) domain_name results js ss NI IN) as (rows & ROWS & SHOWN). destruct (row_algorithms percent string (fun s => s) results js ss rows NI IN SHOWN) as (ALG & _).
  set (d2 := dict_set d TARGET (collected string (fun s => s) results Solving true js)) in *.
  assert (F : exists e, nsam_figure std rows = Err e).
  { destruct (nsam_figure std rows) as [f|e] eqn:F; [|eauto]. exfalso. pose proof (proj1 (PlotProofs.nsam_iff std rows) (ex_intro _ f F) "naive_nsam") as I. apply proj2 in I. destruct I as (r & I & X); [cbn; tauto|]. unfold PlotSpec.kept in I. apply filter_In in I as (I & _).
    destruct (ALG r I) as (fo & n & J). rewrite X in J. destruct (SOLV _ J) as (_ & _ & R & _). cbn in R. intuition discriminate. }
  destruct F as (e & F). exists d2, e. split.
  - assert (D : draw percent (nsam_figure std) TARGET d2 = (d2, Some e)).
    { rewrite (draw_one percent (nsam_figure std) d2 (collected string (fun s => s) results Solving true js) rows); [rewrite F; reflexivity| |apply dict_get_set_same|exact ROWS]. apply filter_one.
      - apply dict_set_keys_NoDup. exact ND.
      - apply dict_set_keys_In. left. reflexivity.
      - reflexivity.
      - intros n I N. apply dict_set_keys_In in I as [I|I]; [contradiction|]. apply dict_get_Some_iff in I as (f & G). destruct (K _ _ G) as (s & -> & _). apply name_not_combined. }
    unfold collect_with_figures. rewrite C. unfold and_then at 4. cbn [snd fst]. change "solving_combined_statistics.csv" with TARGET. rewrite D. reflexivity.
  - unfold d2. split; (rewrite dict_get_set_other; [|discriminate]); [exact (NO Actions)|exact (NO Numeric)].
Qed.
Theorem never_collected std percent algorithms num_folds iterations dom js ws : validator_names obs validate show -> ws_results ws = [] ->
  exists d2 e, collect_with_figures std percent algorithms num_folds iterations dom (ws_results (run_jobs js ws)) = (d2, Some e) /\
    dict_get d2 "syntactic_performance_combined_statistics.csv" = None /\ dict_get d2 "numeric_performance_combined_statistics.csv" = None.
Proof. intros VN E. apply stops. apply kept_jobs; [exact VN|]. rewrite E. split; [constructor|]. intros name f G. discriminate G. Qed.
End Job.
