(** * Collecting the results of online learning: the recorder, the evaluation and the categories *)
From Coq Require Import Lia Ascii.
From Verif Require Import SemiSpec SemiProofs SemiProperties CrossProofs EpisodeProofs EpisodeProperties TextProofs OcolModel OcolSpec OcolProofs OcolTable Prelude PreludeProofs.
Open Scope string_scope. Open Scope list_scope. Open Scope nat_scope.

(** ** The files of the recorder *)
Lemma statistics_own alg f : is_statistics alg (statistics_file alg f).
Proof. exists (decimal f). reflexivity. Qed.
Lemma export_one d alg runs fold rows es : explored d alg runs -> ~ In fold (map fst runs) -> holds_run alg fold es (summarized alg fold rows) -> explored (export_statistics d alg fold rows) alg (runs ++ [(fold, es)]).
Proof.
  intros (ND & NR & O & A) NI H. unfold export_statistics. split; [apply set_nodup; exact ND|]. split; [rewrite map_app; cbn; apply (Permutation_NoDup (Permutation_cons_append (map fst runs) fold)); constructor; assumption|]. split.
  - intros x I B. apply set_keys in I. destruct I as [->|I].
    + exists (fold, es). split; [apply in_app_iff; right; left; reflexivity|reflexivity].
    + destruct (O x I B) as (run & IR & ->). exists run. split; [apply in_app_iff; left; exact IR|reflexivity].
  - intros run I. apply in_app_iff in I. destruct I as [I|[<-|[]]].
    + destruct (A run I) as (B & t & G & HR). split; [exact B|]. exists t. split; [|exact HR]. rewrite dict_get_set_other; [exact G|]. intros E. apply statistics_inj in E. apply NI. rewrite <- E. apply in_map. exact I.
    + cbn [fst snd]. split; [apply statistics_own|]. eexists. split; [apply dict_get_set_same|exact H].
Qed.
Lemma summarized_row alg fold n e (r : row) : dict_get r "episode_number" = Some (CNat n) -> dict_get r "goal_reached" = Some (CBool (e_goal e)) -> dict_get r "safe_model_solution_status" = Some (CText (e_safe e)) ->
  dict_get r "optimistic_model_solution_status" = Some (CText (e_optimistic e)) -> episode_row alg fold n e (dict_set (dict_set r "algorithm_type" (CText alg)) "fold_number" (CNat fold)).
Proof. intros H1 H2 H3 H4. unfold episode_row. rewrite !get_set. cbn. auto 10. Qed.
Lemma summarized_rows {A} (P : nat -> A -> row -> Prop) (f : A -> ending) alg fold : (forall n x r, P n x r -> dict_get r "episode_number" = Some (CNat n) /\ dict_get r "goal_reached" = Some (CBool (e_goal (f x))) /\ dict_get r "safe_model_solution_status" = Some (CText (e_safe (f x))) /\
  dict_get r "optimistic_model_solution_status" = Some (CText (e_optimistic (f x)))) -> forall l rows n, EpisodeSpec.numbered P n l rows -> EpisodeSpec.numbered (episode_row alg fold) n (map f l) (summarized alg fold rows).
Proof.
  intros H. induction l as [|x l IH]; intros [|r rows] n N; try (exfalso; exact N); [exact I|]. destruct N as (N1 & N2). cbn [map summarized EpisodeSpec.numbered]. split; [|apply IH; exact N2]. apply H in N1. apply summarized_row; apply N1.
Qed.
Theorem recorded_files (wstate call : Type) (nm : call -> string) (M : nat) names alg : Forall plain_name names -> forall (series : list (nat * list (op wstate call))) recorders d runs, explored d alg runs -> NoDup (map fst runs ++ map fst series) ->
  Forall (fun x => Forall (legal wstate call nm names) (snd x)) series -> Forall2 (fun x r => run wstate call nm M names (snd x) = Ok r) series recorders ->
  explored (fold_left (fun d fr => export_statistics d alg (fst (fst fr)) (r_rows _ _ (snd fr))) (combine series recorders) d) alg (runs ++ map (fun x => (fst x, map snd (fst (episodes wstate call (snd x))))) series).
Proof.
  intros PN series recorders d runs E ND L F. revert d runs E ND. induction F as [|(f & os) r series recorders R F IH]; intros d runs E ND; [rewrite app_nil_r; exact E|]. inversion L; subst. cbn [combine fold_left fst snd map] in *. change (?a ++ ?b :: ?c) with (a ++ [b] ++ c) in *. rewrite app_assoc in *. apply IH; [assumption| |rewrite map_app; cbn; exact ND].
  apply export_one; [exact E| |].
  - intros X. rewrite <- app_assoc in ND. apply NoDup_remove_2 in ND. apply ND. apply in_app_iff. left. exact X.
  - destruct (C41_accounting wstate call nm M names os PN ltac:(assumption)) as (r' & R' & _ & N & _). rewrite R in R'. injection R' as <-. unfold holds_run. refine (summarized_rows _ snd alg f _ _ _ 1 N). intros n (os' & e) r0 H. cbn [snd]. unfold row_of in H. intuition.
Qed.
(** ** Semi-online runs *)
Definition ending_of (v : visit) : ending := mk_end "" (vi_goal v) (vi_solved v) (status_name (vi_safe_status v)) (status_name (vi_optimistic_status v)) 0%Q true.
Lemma name_ok st : String.eqb (status_name st) "ok" = true -> st = st_ok.
Proof. destruct st; cbn; congruence. Qed.
Lemma ok_goal sd od solvers names me mx ms mf mfile i before learned waiting P v : visited sd od solvers names me mx ms mf mfile i before learned waiting P v -> success (ending_of v) = vi_goal v.
Proof.
  intros (_ & _ & V). unfold success, ending_of. cbn [e_goal e_safe e_optimistic]. destruct (vi_goal v) eqn:G; [reflexivity|]. cbn [orb]. apply not_true_iff_false. intros X. apply orb_true_iff in X.
  destruct (vi_planned v).
  - destruct V as (model & w & _ & _ & [(_ & _ & _ & _ & S & _)|(NS & model' & w' & _ & _ & [(_ & _ & S & _)|(NO & _)])]); [congruence|congruence|]. destruct X as [X|X]; apply name_ok in X; congruence.
  - destruct V as (_ & _ & E1 & E2 & _). rewrite E1, E2 in X. cbn in X. destruct X; discriminate.
Qed.
Lemma all_ok_goal sd od solvers names me mx ms mf mfile : forall problems vs i before learned waiting, all_visited sd od solvers names me mx ms mf mfile i before learned waiting problems vs -> length vs = length problems /\ Forall (fun e => success e = e_goal e) (map ending_of vs).
Proof.
  induction problems as [|P problems IH]; intros [|v vs] i before learned waiting H; try (exfalso; exact H); [split; [reflexivity|constructor]|]. destruct H as (V & H). destruct (IH _ _ _ _ _ H) as (L & F). split; [cbn; congruence|]. constructor; [|exact F]. exact (ok_goal _ _ _ _ _ _ _ _ _ _ _ _ _ _ _ V).
Qed.
Theorem semi_files : forall le unit fine fit hull schmidt rank svm limit fl dom rd min_episodes min_executions max_steps max_failed max_file problem_files,
  fair rd -> 0 < max_file -> Forall plain_name (dict_keys (d_actions dom)) -> forall solvers degree problems M, action_sets problems ->
  semi_run le unit fine fit hull schmidt rank svm limit fl dom rd min_episodes min_executions max_steps max_failed max_file problem_files (Some solvers) degree problems = Ok M ->
  forall d alg runs fold, explored d alg runs -> ~ In fold (map fst runs) -> exists es, length es = length problems /\ Forall (fun e => success e = e_goal e) es /\
    explored (export_statistics d alg fold (r_rows world call (se_rec M))) alg (runs ++ [(fold, es)]).
Proof.
  intros le unit fine fit hull schmidt rank svm limit fl dom rd min_episodes min_executions max_steps max_failed max_file problem_files FR MF PN solvers degree problems M AS E d alg runs fold EX NI.
  destruct (C99_visits_partial _ _ _ _ _ _ _ _ _ _ _ _ _ _ _ _ _ _ FR MF PN _ _ _ _ AS E) as (vs & V & _ & _ & _ & R). destruct (all_ok_goal _ _ _ _ _ _ _ _ _ _ _ _ _ _ _ V) as (L & F). exists (map ending_of vs). split; [rewrite map_length; exact L|]. split; [exact F|]. apply export_one; [exact EX|exact NI|].
  unfold holds_run.
  replace (map ending_of vs) with (map (fun Pv : problem * visit => ending_of (snd Pv)) (combine problems vs)).
  - refine (summarized_rows _ (fun Pv : problem * visit => ending_of (snd Pv)) alg fold _ _ _ 1 R). intros n (P & v) r H. unfold reported in H. cbn. intuition.
  - clear - L. revert problems L. induction vs as [|v vs IH]; intros [|P problems] L; try discriminate L; [reflexivity|]. cbn. f_equal. apply IH. injection L as L. exact L.
Qed.

(** ** Statistics of the evaluation *)
Lemma semantic_inj alg domain n f g : semantic_name alg domain n f = semantic_name alg domain n g -> f = g.
Proof. rewrite !semantic_shape. intros E. apply append_inj_l in E. apply first_under in E; [|apply decimal_no_under..]. apply decimal_inj. exact E. Qed.
Lemma solving_inj alg n f g : solving_name alg n f = solving_name alg n g -> f = g.
Proof. rewrite !solving_shape. intros E. apply append_inj_l in E. apply first_under in E; [|apply decimal_no_under..]. apply decimal_inj. exact E. Qed.
Lemma order_iff {A} (name : nat -> string) p rest (runs order : list (nat * A)) m : (forall f, name f = (p ++ decimal f ++ rest f)%string) -> Permutation (map fst runs) (seq 0 m) -> in_name_order name runs order -> (map fst order = seq 0 m <-> m <= 10).
Proof.
  intros SH P IO. split.
  - intros X. destruct (le_lt_dec m 10) as [L|L]; [exact L|]. exfalso. exact (labels_wrong _ _ _ _ _ m SH L IO X).
  - intros L. exact (labels_right _ _ _ _ _ m SH L P IO).
Qed.
Theorem semantic_spec d alg domain domain' n (runs : list (nat * unit)) : files_of d (is_semantic alg) (semantic_name alg domain n) any_table runs -> runs <> [] ->
  exists order u, in_name_order (semantic_name alg domain n) runs order /\
    collect_sematic_performance_statistics d alg domain' = Ok (dict_set d (domain' ++ "_" ++ alg ++ "_combined_semantic_performance.csv")%string u) /\ collected_files d (semantic_name alg domain n) labelled_rows 0 order u /\
    forall m, Permutation (map fst runs) (seq 0 m) -> (map fst order = seq 0 m <-> m <= 10).
Proof.
  intros F NE. destruct (by_position d _ _ _ (domain' ++ "_" ++ alg ++ "_combined_semantic_performance.csv")%string runs (semantic_pattern alg) (semantic_inj alg domain n) F NE) as (order & u & IO & E & C). exists order, u. split; [exact IO|]. split; [exact E|]. split; [exact C|].
  intros m P. exact (order_iff _ _ _ _ _ m (semantic_shape alg domain n) P IO).
Qed.
Theorem solving_spec d alg domain' n (runs : list (nat * unit)) : files_of d (is_solving alg) (solving_name alg n) any_table runs -> runs <> [] ->
  exists order u, in_name_order (solving_name alg n) runs order /\
    collect_test_set_solving_statistics d alg domain' = Ok (dict_set d (domain' ++ "_" ++ alg ++ "_combined_test_set_solving_statistics.csv")%string u) /\ collected_files d (solving_name alg n) labelled_rows 0 order u /\
    forall m, Permutation (map fst runs) (seq 0 m) -> (map fst order = seq 0 m <-> m <= 10).
Proof.
  intros F NE. destruct (by_position d _ _ _ (domain' ++ "_" ++ alg ++ "_combined_test_set_solving_statistics.csv")%string runs (solving_pattern alg) (solving_inj alg n) F NE) as (order & u & IO & E & C). exists order, u. split; [exact IO|]. split; [exact E|]. split; [exact C|].
  intros m P. exact (order_iff _ _ _ _ _ m (solving_shape alg n) P IO).
Qed.

(** ** Categories *)
Theorem stack_height i e r r' : collected_row i e r r' -> stack r' = Some (if success e && String.eqb (e_optimistic e) "not_applicable" then 2 else 1).
Proof.
  intros (_ & (H1 & H2 & H3 & H4 & _) & _). unfold stack, flag. rewrite H1, H2, H3, H4. unfold success, number. destruct (e_goal e), (String.eqb (e_safe e) "ok"), (String.eqb (e_optimistic e) "ok") eqn:O, (String.eqb (e_optimistic e) "not_applicable") eqn:N; try reflexivity;
  apply String.eqb_eq in O, N; congruence.
Qed.
Theorem solver_column i e r r' : collected_row i e r r' -> dict_get r' "aggregated_success_solver" = dict_get r' "aggregated_success".
Proof. intros (_ & (_ & _ & _ & _ & H5 & H6) & _). congruence. Qed.
(** ** main *)
Theorem main_files d algs domain output d1 : collect_results_for_all_algorithms d algs domain output = Ok d1 -> (forall x, In x (dict_keys d1) -> ~ is_semantic "noam_learning" x) -> collect_main d algs domain output = Err ValueError.
Proof.
  intros E N. unfold collect_main. rewrite E. cbn [bind]. unfold collect_sematic_performance_statistics, collect_by_position, fold_data.
  replace (filter _ (dict_keys d1)) with (@nil string); [reflexivity|]. symmetry.
  assert (X : forall l, (forall x, In x l -> ~ is_semantic "noam_learning" x) -> filter (glob_match ["noam_learning_"; "_numeric_learning_performance_stats_fold"; ".csv"]) l = []).
  { induction l as [|x l IH]; intros H; [reflexivity|]. cbn [filter]. destruct (glob_match _ x) eqn:G; [|apply IH; intros y I; apply H; right; exact I]. exfalso. apply (H x (or_introl eq_refl)). apply semantic_pattern. exact G. }
  apply X. exact N.
Qed.
