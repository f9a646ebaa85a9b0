(** * Whole runs *)
From Verif Require Import CrossSpec CrossProofs FoldProofs CollectProofs EpisodeProofs TextProofs LstatProofs PreludeProofs.
Open Scope string_scope. Open Scope list_scope. Open Scope nat_scope.

Lemma raising_Ok {A} r (x : res A) f r' : raising r x f = (r', None) -> exists a, x = Ok a /\ f a = (r', None).
Proof. destruct x as [a|e]; cbn; [intros E; exists a; auto|discriminate]. Qed.
Lemma then_do_Ok o f r' : then_do o f = (r', None) -> exists r, o = (r, None) /\ f r = (r', None).
Proof. destruct o as [r [e|]]; cbn; [discriminate|intros E; exists r; auto]. Qed.

Section Cross.
Variables (domain obs : Type).
Variables (parse_partial : string -> res domain) (parse_observation : domain -> string -> string -> res obs).
Variable learn : domain -> list obs -> res (domain * option learning_report).
Variables (to_pddl title : domain -> string) (actions_of : domain -> domain_actions) (view : obs -> observation).
Variable validate : string -> files -> list obs -> Q -> res (list (string * value)).
Variables (data : Type) (init_calculator : files -> res data) (measure : data -> string -> nat -> string -> res (rows value)).
Variable matching : files -> list string.
Variables (to_float : string -> res Q) (pb_literals pb_functions : action -> nat) (show : value -> string).
Variables (algorithm : string) (numeric : bool) (domain_name : string) (model : domain_actions) (domain_file_name policy : string).
Variables (shuffle : nat -> list nat) (fifth : nat -> nat) (sample : list string -> nat -> list string) (n_split : nat).

Notation run_cross_validation := (run_cross_validation domain obs parse_partial parse_observation learn to_pddl title actions_of view validate data init_calculator measure matching
  to_float pb_literals pb_functions show algorithm numeric domain_name model domain_file_name policy shuffle fifth sample n_split).
Notation run_fold := (run_fold domain obs parse_partial parse_observation learn to_pddl title actions_of view validate data init_calculator measure matching
  to_float pb_literals pb_functions show algorithm numeric domain_name model domain_file_name policy).
Notation tools_work := (tools_work domain obs parse_partial parse_observation learn actions_of validate data init_calculator measure to_float numeric domain_file_name policy).
Notation whole := (whole domain obs parse_partial parse_observation learn to_pddl title actions_of view validate data init_calculator measure
  to_float pb_literals pb_functions show algorithm numeric domain_name model domain_file_name policy).

Variable before : string -> string -> Prop.
Lemma same_members (items l : list string) : NoDup items -> NoDup l -> incl items l -> length items = length l -> forall x, In x items <-> In x l.
Proof.
  intros N NL I L x. split; [apply I|]. intros X. assert (LL : length l <= length items) by lia. exact (NoDup_length_incl N LL I x X).
Qed.

Lemma run_ok w : shuffles shuffle -> samples sample -> lists_trajectories before matching -> (forall x, domain_file_name <> (x ++ ".trajectory")%string) -> well_named model ->
  ready string domain_file_name matching w -> w_config _ w = NoFile -> tools_work (w_files _ w) (matching (w_files _ w)) ->
  let n := length (matching (w_files _ w)) in let k := if n_split =? 0 then n else n_split in 2 <= k <= n ->
  exists w' items tests, NoDup items /\ (forall x, In x items <-> In x (matching (w_files _ w))) /\ length tests = k /\ (forall x, In x items -> in_exactly_one x tests) /\
    w_files _ w' = w_files _ w /\ w_train _ w' = None /\ w_test _ w' = None /\
    (forall results backups, exists r l, run_cross_validation w (new_runner results backups) = (w', (r, None)) /\ whole before (w_files _ w) items tests l results r) /\
    (forall results backups, exists r l, run_cross_validation w' (new_runner results backups) = (w', (r, None)) /\ whole before (w_files _ w) items tests l results r).
Proof.
  intros SH SA GL DN WM RD CF TW n k K.
  pose proof (create_ok shuffle fifth SH string domain_file_name matching sample SA w (S (n + 0)) n_split 0 false true RD) as C. cbn zeta in C.
  assert (U : used (length (matching (w_files _ w))) 0 = n) by (unfold used; reflexivity). rewrite U in C.
  assert (FW : folds_wanted n n_split false = k) by reflexivity. rewrite FW in C.
  destruct C as (seen & w' & items & tests & E & N & I & L & LT & F & O & W1 & W2 & W3 & R).
  - unfold possible. rewrite FW. exact K.
  - rewrite CF. exact Logic.I.
  - right. exact CF.
  - lia.
  - assert (SM : forall x, In x items <-> In x (matching (w_files _ w))) by (apply same_members; [exact N|apply RD|exact I|exact L]).
    exists w', items, tests. split; [exact N|]. split; [exact SM|]. split; [exact LT|]. split; [exact (O eq_refl)|].
    split; [exact W1|]. split; [exact W2|]. split; [exact W3|].
    assert (TN : tests <> []) by (intros ->; cbn in LT; lia).
    assert (TW' : tools_work (w_files _ w) items).
    { destruct TW as ((te & pa & A & B & Cc & D) & X). split; [|exact X]. exists te, pa. split; [exact A|]. split; [exact B|]. split; [|exact D].
      intros x p t XI. apply Cc. apply SM. exact XI. }
    assert (RD' : forall x, In x items -> incl (both x) (map fst (w_files _ w))) by (intros x X; apply RD; apply I; exact X).
    split; intros results backups.
    + destruct (whole_ok domain obs parse_partial parse_observation learn to_pddl title actions_of view validate data init_calculator measure matching
        to_float pb_literals pb_functions show algorithm numeric domain_name model domain_file_name policy before GL DN WM (w_files _ w) items TW' RD' tests seen results backups TN F) as (l & r & EW & WH).
      exists r, l. split; [|exact WH]. unfold CrossModel.run_cross_validation. rewrite CF. cbn [saved_folds]. fold n. rewrite E. f_equal. exact EW.
    + assert (NX : k < S (length (matching (w_files _ w')) + saved_folds (w_config _ w'))) by (rewrite W1; fold n; lia).
      destruct (R _ n_split 0 false NX) as (seen' & E' & F').
      destruct (whole_ok domain obs parse_partial parse_observation learn to_pddl title actions_of view validate data init_calculator measure matching
        to_float pb_literals pb_functions show algorithm numeric domain_name model domain_file_name policy before GL DN WM (w_files _ w) items TW' RD' tests seen' results backups TN F') as (l & r & EW & WH).
      exists r, l. split; [|exact WH]. unfold CrossModel.run_cross_validation. rewrite E'. f_equal. exact EW.
Qed.

(** ** A fold run by itself *)
Notation pname := (performance_name algorithm numeric domain_name).
Lemma run_fold_reads i train test common r r' : run_fold i train test common r = (r', None) ->
  exists calc partial used learned rep stats text, init_calculator common = Ok calc /\ dict_get train domain_file_name = Some text /\ parse_partial text = Ok partial /\
    collect_observations domain obs parse_observation matching train partial = Ok used /\ learn partial used = Ok (learned, rep) /\
    measure calc (to_pddl learned) (length used) policy = Ok stats /\
    dict_get (r_results r') (pname (i + 1)) = Some (mk_csv (performance_columns numeric) (fst (write_lines value show (performance_columns numeric) stats))).
Proof.
  unfold CrossModel.run_fold, init_semantic_performance_calculator. intros H.
  apply raising_Ok in H. destruct H as (calc & IC & H). apply then_do_Ok in H. destruct H as (r1 & H & E1). injection E1 as E1. unfold learn_model_offline in H.
  apply raising_Ok in H. destruct H as (partial & P & H). apply raising_Ok in H. destruct H as (used & U & H). apply raising_Ok in H. destruct H as ([learned rep] & L & H).
  apply then_do_Ok in H. destruct H as (r2 & A & H). apply raising_Ok in H. destruct H as (time & T & H). apply then_do_Ok in H. destruct H as (r3 & V & H).
  apply raising_Ok in H. destruct H as (stats & M & H). cbn zeta in H.
  assert (S3 : r_semantic r3 = Some []).
  { unfold validate_learned_domain in V. apply raising_Ok in V. destruct V as (row & _ & V). injection V as <-. cbn [r_semantic].
    unfold on_manager in A. destruct (add_to_action_stats _ _ _ _ _ _ _ _ _ _ _) as [m e]. injection A as <- _. reflexivity. }
  rewrite S3 in H. cbn [app] in H.
  apply then_do_Ok in H. destruct H as (r4 & A4 & H). apply then_do_Ok in H. destruct H as (r5 & A5 & H).
  unfold read in P. destruct (dict_get train domain_file_name) as [text|] eqn:G; [|discriminate P]. cbn [bind] in P.
  exists calc, partial, used, learned, rep, stats, text. split; [exact IC|]. split; [reflexivity|]. split; [exact P|]. split; [exact U|]. split; [exact L|]. split; [exact M|].
  subst r'. unfold clear_solving. cbn [r_results].
  assert (G5 : dict_get (r_results r5) (pname (i + 1)) = Some (mk_csv (performance_columns numeric) (fst (write_lines value show (performance_columns numeric) stats)))).
  { rewrite performance_name_eq. unfold on_results, export_performance, export_numeric_performance, export_semantic_performance in A5. unfold perf_kind, performance_columns, subject_at. clear -A5.
    destruct numeric; unfold write_csv in A5.
    - destruct (write_lines value show NUMERIC_PERFORMANCE_STATS stats) as [ls e]. injection A5 as <- E. cbn [r_results fst]. apply dict_get_set_same.
    - destruct (write_lines value show SEMANTIC_PRECISION_STATS stats) as [ls e]. injection A5 as <- E. cbn [r_results fst]. apply dict_get_set_same. }
  rewrite <- G5. unfold on_results in H. destruct (write_statistics value show algorithm i None (r_solving r5) (r_results r5)) as [d e] eqn:WS. injection H as <- _. cbn [r_results].
  unfold write_statistics, write_csv in WS. destruct (write_lines _ _ _ _) as [ls e']. injection WS as <- _. apply dict_get_set_other.
  rewrite performance_name_eq. change (solving_file algorithm i None) with (name_of domain_name (subject_at algorithm Solving i)).
  intros X. apply name_inj in X. injection X as X _. unfold perf_kind in X. destruct numeric; discriminate X.
Qed.
Lemma run_fold_ignores i train test test' common r r1 r2 : run_fold i train test common r = (r1, None) -> run_fold i train test' common r = (r2, None) ->
  dict_get (r_results r1) (pname (i + 1)) = dict_get (r_results r2) (pname (i + 1)).
Proof.
  intros A B. apply run_fold_reads in A, B. destruct A as (c & p & u & l & rp & st & te & A1 & A2 & A3 & A4 & A5 & A6 & A7).
  destruct B as (c' & p' & u' & l' & rp' & st' & te' & B1 & B2 & B3 & B4 & B5 & B6 & B7).
  assert (c = c') by congruence. assert (te = te') by congruence. subst c' te'. assert (p = p') by congruence. subst p'. assert (u = u') by congruence. subst u'.
  assert (l = l') by congruence. subst l'. rewrite A6 in B6. injection B6 as <-. congruence.
Qed.
End Cross.
