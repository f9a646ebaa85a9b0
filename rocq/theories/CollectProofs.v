(** * Collected results: proofs *)
From Verif Require Import CollectModel CollectSpec LstatProofs EpisodeProofs TextProofs DfoldFinal.
From Coq Require Import Ascii DecimalString DecimalNat DecimalFacts.
From Verif Require Import Prelude PreludeProofs.
Open Scope string_scope. Open Scope list_scope. Open Scope nat_scope.

(** ** File names *)
Lemma decimal_not n s : NilZero.uint_of_string s = None -> decimal n <> s.
Proof.
  intros E X. unfold decimal in X. assert (Y : NilZero.uint_of_string (NilZero.string_of_uint (Nat.to_uint n)) = None) by (rewrite X; exact E).
  rewrite NilZero.usu in Y; [discriminate|apply to_uint_nonnil].
Qed.
Lemma app_r a b c : ((a ++ b) ++ c)%string = (a ++ b ++ c)%string.
Proof. induction a as [|x a IH]; [reflexivity|]. cbn. rewrite IH. reflexivity. Qed.
Definition three (p w3 w2 w1 : string) : string := (((p ++ "_" ++ w3) ++ "_" ++ w2) ++ "_" ++ w1)%string.
Lemma three_inj p w3 w2 w1 p' w3' w2' w1' : no_under w3 = true -> no_under w2 = true -> no_under w1 = true -> no_under w3' = true -> no_under w2' = true -> no_under w1' = true ->
  three p w3 w2 w1 = three p' w3' w2' w1' -> p = p' /\ w3 = w3' /\ w2 = w2' /\ w1 = w1'.
Proof.
  intros A B C A' B' C' E. unfold three in E. apply under_split in E; [|assumption..]. destruct E as [E E1]. apply under_split in E; [|assumption..]. destruct E as [E E2].
  apply under_split in E; [|assumption..]. destruct E as [E E3]. auto.
Qed.

Ltac clash := match goal with
  | H : decimal _ = _ |- _ => exfalso; revert H; apply decimal_not; reflexivity
  | H : _ = decimal _ |- _ => exfalso; symmetry in H; revert H; apply decimal_not; reflexivity
  end.
Section Names.
Variable domain : string.
Definition name_of (s : subject) : string :=
  match s_kind s with
  | Solving => solving_file (s_alg s) (s_fold s) (s_iteration s)
  | Semantic => semantic_file (s_alg s) domain (s_fold s) (s_iteration s)
  | Numeric => numeric_file (s_alg s) domain (s_fold s) (s_iteration s)
  | Actions => action_stats_file (s_alg s) domain (s_fold s) (s_iteration s)
  end.
Definition prefix_of (s : subject) : string :=
  match s_kind s, s_iteration s with
  | Solving, Some _ => (s_alg s ++ "_problem_solving_stats_fold")%string
  | Solving, None => ((s_alg s ++ "_problem") ++ "_" ++ "solving")%string
  | Semantic, _ => ((s_alg s ++ "_" ++ domain) ++ "_" ++ decimal (s_fold s))%string
  | Numeric, Some _ => (((s_alg s ++ "_" ++ domain ++ "_numeric_learning") ++ "_" ++ "performance") ++ "_stats")%string
  | Numeric, None => ((s_alg s ++ "_" ++ domain ++ "_numeric_learning") ++ "_" ++ "performance")%string
  | Actions, Some _ => (((s_alg s ++ "_" ++ domain) ++ "_" ++ "action") ++ "_stats")%string
  | Actions, None => ((s_alg s ++ "_" ++ domain) ++ "_" ++ "action")%string
  end.
Definition ending (s : subject) : string * string * string :=
  match s_kind s, s_iteration s with
  | Solving, Some n => (decimal (s_fold s), decimal n, "trajectories")
  | Semantic, Some n => (decimal n, "semantic", "performance")
  | Semantic, None => ("", "semantic", "performance")
  | Numeric, Some n | Actions, Some n => ("fold", decimal (s_fold s), decimal n)
  | _, None => ("stats", "fold", decimal (s_fold s))
  end.
Lemma name_three s : name_of s = (let '(w3, w2, w1) := ending s in three (prefix_of s) w3 w2 w1 ++ ".csv")%string.
Proof.
  destruct s as [k alg f [n|]]; destruct k; unfold name_of, ending, prefix_of, solving_file, semantic_file, numeric_file, action_stats_file, three; cbn [s_kind s_iteration s_alg s_fold];
    rewrite ?app_r; cbn [append]; reflexivity.
Qed.
Lemma ending_under s : let '(w3, w2, w1) := ending s in no_under w3 = true /\ no_under w2 = true /\ no_under w1 = true.
Proof. destruct s as [k alg f [n|]]; destruct k; cbn; repeat split; try reflexivity; apply decimal_no_under. Qed.
Lemma name_inj s s' : name_of s = name_of s' -> s = s'.
Proof.
  intros E. rewrite !name_three in E. pose proof (ending_under s) as U. pose proof (ending_under s') as U'. destruct (ending s) as [[w3 w2] w1] eqn:W.
  destruct (ending s') as [[w3' w2'] w1'] eqn:W'. apply append_inj_r in E. destruct U as (U3 & U2 & U1). destruct U' as (U3' & U2' & U1').
  apply three_inj in E; [|assumption..]. destruct E as (EP & <- & <- & <-). clear U3 U2 U1 U3' U2' U1'.
  destruct s as [k alg f i]; destruct s' as [k' alg' f' i']. unfold ending, prefix_of in *. cbn [s_kind s_iteration s_alg s_fold] in *.
  destruct k, k', i as [n|], i' as [n'|]; injection W as X3 X2 X1; injection W' as Y3 Y2 Y1; subst w3 w2 w1; try discriminate; try clash.
  - apply append_inj_r in EP. apply decimal_inj in Y3, Y2. congruence.
  - apply append_inj_r in EP. apply append_inj_r in EP. apply decimal_inj in Y1. congruence.
  - apply under_split in EP; [|reflexivity..]. destruct EP as [_ EP]; discriminate.
  - apply under_split in EP; [|reflexivity..]. destruct EP as [_ EP]; discriminate.
  - apply under_split in EP; [|apply decimal_no_under..]. destruct EP as [EP EF]. apply append_inj_r in EP. apply decimal_inj in Y3, EF. congruence.
  - apply under_split in EP; [|apply decimal_no_under..]. destruct EP as [EP EF]. apply append_inj_r in EP. apply decimal_inj in EF. congruence.
  - apply under_split in EP; [|reflexivity..]. destruct EP as [_ EP]; discriminate.
  - apply append_inj_r in EP. apply under_split in EP; [|reflexivity..]. destruct EP as [EP _]. apply append_inj_r in EP. apply decimal_inj in Y2, Y1. congruence.
  - apply under_split in EP; [|reflexivity..]. destruct EP as [EP _]. apply append_inj_r in EP. apply decimal_inj in Y1. congruence.
  - apply append_inj_r in EP. apply under_split in EP; [|reflexivity..]. destruct EP as [_ EP]; discriminate.
  - apply under_split in EP; [|reflexivity..]. destruct EP as [_ EP]; discriminate.
  - apply under_split in EP; [|reflexivity..]. destruct EP as [_ EP]; discriminate.
  - apply append_inj_r in EP. apply under_split in EP; [|reflexivity..]. destruct EP as [_ EP]; discriminate.
  - apply under_split in EP; [|reflexivity..]. destruct EP as [_ EP]; discriminate.
  - apply append_inj_r in EP. apply under_split in EP; [|reflexivity..]. destruct EP as [EP _]. apply append_inj_r in EP. apply decimal_inj in Y2, Y1. congruence.
  - apply under_split in EP; [|reflexivity..]. destruct EP as [EP _]. apply append_inj_r in EP. apply decimal_inj in Y1. congruence.
Qed.
End Names.

(** ** Reading back what was written *)
Lemma set_fresh {V} (l d : list (string * V)) : NoDup (dict_keys d ++ dict_keys l) -> fold_left (fun d kv => dict_set d (fst kv) (snd kv)) l d = d ++ l.
Proof.
  revert d. induction l as [|[k v] l IH]; intros d N; [rewrite app_nil_r; reflexivity|]. cbn [fold_left fst snd].
  assert (K : ~ In k (dict_keys d)). { intros X. unfold dict_keys in N. cbn [map fst] in N. apply NoDup_remove_2 in N. apply N. apply in_or_app. left. exact X. }
  rewrite (dict_set_keys_new d k v K), IH; [rewrite <- app_assoc; reflexivity|].
  unfold dict_keys in *. rewrite map_app. cbn [map fst]. rewrite <- app_assoc. exact N.
Qed.
Lemma combine_keys {V} (c : list string) (l : list V) : length l = length c -> dict_keys (combine c l) = c.
Proof. revert l. induction c as [|x c IH]; intros [|y l] E; try discriminate; [reflexivity|]. unfold dict_keys in *. cbn. f_equal. apply IH. cbn in E. lia. Qed.
Lemma combine_line (c l : list string) : NoDup c -> length l = length c -> line_of (fun s : string => s) c (combine c l) = l.
Proof.
  unfold line_of. revert l. induction c as [|x c IH]; intros [|y l] N E; try discriminate; [reflexivity|]. inversion N as [|? ? N1 N2]; subst.
  cbn [combine map dict_get]. destruct (eq_dec x x) as [_|F]; [|congruence]. f_equal. etransitivity; [|apply (IH l N2); cbn in E; lia].
  apply map_ext_in. intros a A. destruct (eq_dec a x) as [->|_]; [contradiction|reflexivity].
Qed.
Lemma fold_line (c l : list string) f : NoDup ("fold" :: c) -> length l = length c ->
  let r := fold_left (fun e kv => dict_set e (fst kv) (snd kv)) (fold_left (fun d kv => dict_set d (fst kv) (snd kv)) (combine c l) []) [("fold", f)] in
  line_of (fun s : string => s) ("fold" :: c) r = f :: l /\ incl (dict_keys r) ("fold" :: c).
Proof.
  intros N E. cbn zeta. assert (N1 : NoDup c) by (inversion N; assumption).
  rewrite (set_fresh (combine c l) []) by (cbn [dict_keys map app]; change (map fst (combine c l)) with (dict_keys (combine c l)); rewrite combine_keys; assumption).
  cbn [app]. rewrite set_fresh by (rewrite combine_keys by exact E; exact N).
  change ([("fold", f)] ++ combine c l) with (combine ("fold" :: c) (f :: l)).
  split; [apply combine_line; [exact N|cbn; lia]|]. rewrite combine_keys by (cbn; lia). apply incl_refl.
Qed.

(** ** Combining *)
Section Combine.
Variables (algorithms : list string) (num_folds : nat) (iterations : list nat).
Notation data_of d template exclude := (combine_statistics_data algorithms num_folds iterations d template exclude).
Definition step_job (d : directory) (template : string -> nat -> nat -> string) (data : list text_row) (j : nat * nat * string) : res (list text_row) :=
  let '(fold, iteration, alg) := j in
  match dict_get d (template alg fold iteration) with
  | None => Err KeyError
  | Some f => Ok (data ++ map (fun r => fold_left (fun e kv => dict_set e (fst kv) (snd kv)) r [(FOLD_FIELD, decimal fold)]) (read_csv f))
  end.
Lemma combine_jobs d template exclude :
  data_of d template exclude = fold_res (step_job d template) (jobs num_folds iterations (kept algorithms exclude)) [].
Proof.
  unfold combine_statistics_data, jobs. fold (kept algorithms exclude). rewrite <- fold_res_flat. apply fold_res_ext. intros s fold _.
  rewrite <- fold_res_flat. apply fold_res_ext. intros s' it _. rewrite fold_res_map. apply fold_res_ext. intros s'' alg _. reflexivity.
Qed.
Lemma steps_ok d template js data (g : nat * nat * string -> csv) :
  (forall fold it alg, In (fold, it, alg) js -> dict_get d (template alg fold it) = Some (g (fold, it, alg))) ->
  fold_res (step_job d template) js data = Ok (data ++ flat_map (fun j => map (fun r => fold_left (fun e kv => dict_set e (fst kv) (snd kv)) r [(FOLD_FIELD, decimal (fst (fst j)))]) (read_csv (g j))) js).
Proof.
  revert data. induction js as [|[[fold it] alg] js IH]; intros data H; [cbn; rewrite app_nil_r; reflexivity|].
  cbn [fold_res flat_map]. unfold step_job at 1. rewrite (H fold it alg (or_introl eq_refl)). cbn [bind].
  rewrite IH by (intros; apply H; right; assumption). rewrite app_assoc. reflexivity.
Qed.
Lemma steps_ext d t t' js data : (forall alg fold it, t alg fold it = t' alg fold it) -> fold_res (step_job d t) js data = fold_res (step_job d t') js data.
Proof. intros E. apply fold_res_ext. intros s [[fold it] alg] _. unfold step_job. rewrite E. reflexivity. Qed.
Lemma steps_missing d template js data fold it alg : In (fold, it, alg) js -> dict_get d (template alg fold it) = None ->
  fold_res (step_job d template) js data = Err KeyError.
Proof.
  revert data. induction js as [|[[fold' it'] alg'] js IH]; intros data I M; [destruct I|]. cbn [fold_res]. unfold step_job at 1.
  destruct I as [X|I]; [injection X as -> -> ->; rewrite M; reflexivity|]. destruct (dict_get d (template alg' fold' it')); [|reflexivity]. cbn [bind]. apply IH; assumption.
Qed.
End Combine.

Section Runs.
Variables (V : Type) (show : V -> string) (domain : string) (results : subject -> rows V).
Notation perform := (perform V show domain results).
Notation perform_all := (perform_all V show domain results).
Notation reportable := (reportable V results).
Definition file_of (s : subject) : csv := mk_csv (columns_of (s_kind s)) (map (line_of show (columns_of (s_kind s))) (results s)).
Lemma perform_ok s d : (forall r, In r (results s) -> incl (dict_keys r) (columns_of (s_kind s))) -> perform s d = (dict_set d (name_of domain s) (file_of s), None).
Proof.
  intros F. destruct s as [k alg f i]. unfold CollectSpec.perform, name_of, file_of in *. cbn [s_kind s_alg s_fold s_iteration] in *.
  destruct k; cbn [columns_of] in *; apply (write_csv_ok show); apply Forall_forall; exact F.
Qed.
Lemma perform_all_gen ss d : reportable ss -> exists d', perform_all ss d = (d', None) /\
  (forall s, In s ss -> dict_get d' (name_of domain s) = Some (file_of s)) /\
  (forall n, (forall s, In s ss -> n <> name_of domain s) -> dict_get d' n = dict_get d n).
Proof.
  unfold CollectSpec.perform_all. intros R. revert d. induction ss as [|s ss IH] using rev_ind; intros d.
  - exists d. split; [reflexivity|]. split; [intros s []|auto].
  - destruct (IH (fun s' r I => R s' r (in_or_app _ _ _ (or_introl I))) d) as (d' & E & A & B). rewrite fold_left_app, E. cbn [fold_left snd fst].
    rewrite perform_ok; [|intros r X; apply (R s r); [apply in_or_app; right; left; reflexivity|exact X]].
    eexists. split; [reflexivity|]. split.
    + intros s' I. rewrite dict_get_set. destruct (eq_dec _ _) as [X|X]; [apply name_inj in X; subst s'; reflexivity|].
      apply A. apply in_app_or in I. destruct I as [I|[<-|[]]]; [exact I|congruence].
    + intros n N. rewrite dict_get_set_other; [|apply N; apply in_or_app; right; left; reflexivity]. apply B. intros s' I. apply N. apply in_or_app. left. exact I.
Qed.

Lemma columns_nodup k : NoDup ("fold" :: columns_of k).
Proof.
  destruct k; cbn [columns_of]; unfold SOLVING_STATISTICS, SEMANTIC_PRECISION_STATS, NUMERIC_PERFORMANCE_STATS, LEARNED_ACTIONS_STATS_COLUMNS;
    repeat (constructor; [intros X; cbn [In] in X; repeat (destruct X as [X|X]; [discriminate X|]); exact X|]); constructor.
Qed.

Section Collecting.
Variables (algorithms : list string) (num_folds : nat) (iterations : list nat) (exclude : option string).
Notation js k := (jobs num_folds iterations (kept algorithms (if can_exclude k then exclude else None))).
Notation collecting := (collecting algorithms num_folds iterations domain exclude).
Definition target (k : kind) (triplets : bool) : string := (collected_name k ++ (if triplets then "_with_triplets" else "") ++ ".csv")%string.
Definition template (k : kind) (triplets : bool) (alg : string) (fold it : nat) : string :=
  if (match k with Semantic => triplets | _ => false end) then (alg ++ "_" ++ domain ++ "_" ++ decimal fold ++ "_semantic_performance.csv")%string
  else name_of domain (mk_subject k alg fold (if triplets then None else Some it)).
Lemma collecting_jobs k triplets d : collecting k triplets d =
  match fold_res (step_job d (template k triplets)) (js k) [] with
  | Err e => (d, Some e)
  | Ok data => write_csv string (fun s => s) ("fold" :: columns_of k) data (target k triplets) d
  end.
Proof.
  destruct k, triplets; cbn [CollectSpec.collecting can_exclude columns_of];
  [unfold collect_solving_statistics|unfold collect_solving_statistics|unfold collect_semantic_performance_statistics|unfold collect_semantic_performance_statistics
  |unfold collect_numeric_semantic_performance_statistics|unfold collect_numeric_semantic_performance_statistics
  |unfold collect_syntactic_performance_statistics|unfold collect_syntactic_performance_statistics]; unfold collect; rewrite combine_jobs;
  [rewrite (steps_ext d _ (template Solving true))|rewrite (steps_ext d _ (template Solving false))
  |rewrite (steps_ext d _ (template Semantic true))|rewrite (steps_ext d _ (template Semantic false))
  |rewrite (steps_ext d _ (template Numeric true))|rewrite (steps_ext d _ (template Numeric false))
  |rewrite (steps_ext d _ (template Actions true))|rewrite (steps_ext d _ (template Actions false))]; try reflexivity;
  intros alg fold it; unfold template, name_of; cbn [s_kind s_alg s_fold s_iteration];
  unfold solving_file, semantic_file, numeric_file, action_stats_file; rewrite ?app_r; reflexivity.
Qed.
Lemma collecting_ok k triplets d : (k = Semantic -> triplets = false) ->
  (forall j, In j (js k) -> dict_get d (name_of domain (subject_of k (negb triplets) j)) = Some (file_of (subject_of k (negb triplets) j))) ->
  collecting k triplets d = (dict_set d (target k triplets) (collected V show results k (negb triplets) (js k)), None).
Proof.
  intros NS H. rewrite collecting_jobs.
  rewrite (steps_ok d (template k triplets) (js k) [] (fun j => file_of (subject_of k (negb triplets) j))).
  2:{ intros fold it alg I. specialize (H _ I). cbn [subject_of] in H. unfold template.
      replace (match k with Semantic => triplets | _ => false end) with false by (destruct k; auto; symmetry; auto).
      destruct triplets; exact H. }
  cbn [app]. rewrite write_csv_ok.
  - f_equal. f_equal. unfold collected. f_equal. rewrite flat_map_concat_map, concat_map, map_map, <- flat_map_concat_map.
    apply flat_map_ext. intros [[fold it] alg]. cbn [fst subject_of]. unfold read_csv, file_of. cbn [csv_header csv_lines s_kind]. rewrite !map_map.
    apply map_ext. intros r. apply (fold_line (columns_of k) (line_of show (columns_of k) r) (decimal fold) (columns_nodup k)). unfold line_of. apply map_length.
  - apply Forall_forall. intros r I. apply in_flat_map in I. destruct I as ([[fold it] alg] & _ & I). cbn [fst subject_of] in I. unfold read_csv, file_of in I.
    cbn [csv_header csv_lines s_kind] in I. rewrite !map_map in I. apply in_map_iff in I. destruct I as (r0 & <- & _).
    apply (fold_line (columns_of k) (line_of show (columns_of k) r0) (decimal fold) (columns_nodup k)). unfold line_of. apply map_length.
Qed.
Lemma collecting_frame k triplets d n : n <> target k triplets -> dict_get (fst (collecting k triplets d)) n = dict_get d n.
Proof.
  intros N. rewrite collecting_jobs. destruct (fold_res _ _ _) as [data|e]; [|reflexivity]. unfold write_csv. destruct (write_lines _ _ _ _) as [ls e]. cbn [fst].
  apply dict_get_set_other. exact N.
Qed.
Lemma target_not_name k triplets s : name_of domain s <> target k triplets.
Proof.
  intros E. rewrite name_three in E. pose proof (ending_under s) as U. destruct (ending s) as [[w3 w2] w1] eqn:W. destruct U as (_ & _ & U). unfold three in E.
  assert (X : exists p, target k triplets = ((p ++ "_" ++ (if triplets then "triplets" else "statistics")) ++ ".csv")%string).
  { destruct k, triplets; [exists "solving_combined_statistics_with"|exists "solving_combined"|exists "semantic_performance_combined_statistics_with"|exists "semantic_performance_combined"
    |exists "numeric_performance_combined_statistics_with"|exists "numeric_performance_combined"|exists "syntactic_performance_combined_statistics_with"|exists "syntactic_performance_combined"]; reflexivity. }
  destruct X as (p & X). rewrite X in E. apply append_inj_r in E. apply under_split in E; [|exact U|destruct triplets; reflexivity]. destruct E as [_ E].
  destruct s as [k' alg f [n|]]; destruct k'; cbn in W; injection W as <- <- <-; destruct triplets; try discriminate; clash.
Qed.

Lemma collected_ok ss d k triplets : reportable ss -> (k = Semantic -> triplets = false) ->
  (forall j, In j (js k) -> In (subject_of k (negb triplets) j) ss) ->
  exists d1 d2, perform_all ss d = (d1, None) /\ collecting k triplets d1 = (d2, None) /\
    file_added (target k triplets) (collected V show results k (negb triplets) (js k)) d1 d2.
Proof.
  intros R NS C. destruct (perform_all_gen ss d R) as (d1 & E & A & _). exists d1. eexists. split; [exact E|].
  split; [apply collecting_ok; [exact NS|]; intros j I; apply A, C, I|]. apply set_added.
Qed.
Lemma missing_raises ss k triplets j : reportable ss -> (k = Semantic -> triplets = false) -> In j (js k) -> ~ In (subject_of k (negb triplets) j) ss ->
  exists d1, perform_all ss [] = (d1, None) /\ collecting k triplets d1 = (d1, Some KeyError).
Proof.
  intros R NS J N. destruct (perform_all_gen ss [] R) as (d1 & E & _ & B). exists d1. split; [exact E|]. rewrite collecting_jobs. destruct j as [[fold it] alg].
  rewrite (steps_missing d1 (template k triplets) (js k) [] fold it alg J); [reflexivity|]. unfold template.
  replace (match k with Semantic => triplets | _ => false end) with false by (destruct k; auto; symmetry; auto). cbn [subject_of] in N.
  rewrite B; [reflexivity|]. intros s I X. apply name_inj in X. subst s. destruct triplets; contradiction.
Qed.

(** ** Digits *)
Lemma digits_app a b : count_digits (a ++ b)%string = count_digits a + count_digits b.
Proof. induction a as [|c a IH]; [reflexivity|]. cbn. rewrite IH. lia. Qed.
Lemma decimal_digits n : 0 < count_digits (decimal n).
Proof.
  unfold decimal. assert (N : Nat.to_uint n <> Decimal.Nil) by apply to_uint_nonnil. unfold NilZero.string_of_uint. destruct (Nat.to_uint n); [congruence|..]; cbn [NilEmpty.string_of_uint count_digits];
    match goal with |- context[if ?b then _ else _] => change b with true end; cbv iota; lia.
Qed.
Lemma semantic_triplets_name alg fold s : count_digits alg = 0 -> count_digits (s_alg s) = 0 ->
  (alg ++ "_" ++ domain ++ "_" ++ decimal fold ++ "_semantic_performance.csv")%string <> name_of domain s.
Proof.
  intros D D' E. rewrite name_three in E. pose proof (ending_under s) as U. destruct (ending s) as [[w3 w2] w1] eqn:W. destruct U as (U3 & U2 & U1).
  assert (X : (alg ++ "_" ++ domain ++ "_" ++ decimal fold ++ "_semantic_performance.csv")%string = (three (alg ++ "_" ++ domain) (decimal fold) "semantic" "performance" ++ ".csv")%string).
  { unfold three. rewrite !app_r. reflexivity. }
  rewrite X in E. apply append_inj_r in E. apply three_inj in E; try assumption; try reflexivity; [|apply decimal_no_under]. destruct E as (EP & E3 & E2 & E1). subst w3 w2 w1.
  destruct s as [k alg' f [n|]]; destruct k; unfold ending in W; cbn [s_kind s_iteration s_fold] in W; injection W; clear W; intros; try discriminate; try clash.
  - unfold prefix_of in EP. cbn [s_kind s_iteration s_alg s_fold] in *. apply (f_equal count_digits) in EP. rewrite !digits_app in EP. cbn [count_digits] in EP.
    pose proof (decimal_digits f). cbn in EP. lia.
Qed.
Lemma semantic_triplets_raise d j : In j (js Semantic) -> (forall fold it alg, j = (fold, it, alg) -> dict_get d (alg ++ "_" ++ domain ++ "_" ++ decimal fold ++ "_semantic_performance.csv")%string = None) ->
  collecting Semantic true d = (d, Some KeyError).
Proof.
  intros J M. rewrite collecting_jobs. destruct j as [[fold it] alg]. rewrite (steps_missing d (template Semantic true) (js Semantic) [] fold it alg J); [reflexivity|].
  unfold template. apply (M fold it alg eq_refl).
Qed.
Lemma semantic_triplets_never ss j : reportable ss -> (forall s, In s ss -> count_digits (s_alg s) = 0) -> (forall a, In a algorithms -> count_digits a = 0) -> In j (js Semantic) ->
  exists d1, perform_all ss [] = (d1, None) /\ collecting Semantic true d1 = (d1, Some KeyError) /\
    dict_get d1 (snd j ++ "_" ++ domain ++ "_" ++ decimal (fst (fst j)) ++ "_semantic_performance.csv")%string = None.
Proof.
  intros R DS DA J. destruct (perform_all_gen ss [] R) as (d1 & E & _ & B). exists d1. split; [exact E|].
  assert (M : dict_get d1 (snd j ++ "_" ++ domain ++ "_" ++ decimal (fst (fst j)) ++ "_semantic_performance.csv")%string = None).
  { rewrite B; [reflexivity|]. intros s I. apply semantic_triplets_name; [|apply DS; exact I]. apply DA. destruct j as [[fold it] alg]. cbn [snd].
    unfold jobs in J. apply in_flat_map in J. destruct J as (f & _ & J). apply in_flat_map in J. destruct J as (i & _ & J). apply in_map_iff in J. destruct J as (a & X & J).
    injection X as _ _ ->. cbn [can_exclude] in J. unfold kept in J. destruct exclude; [apply filter_In in J; apply J|exact J]. }
  split; [|exact M]. apply (semantic_triplets_raise d1 j); [exact J|]. intros fold it alg ->. exact M.
Qed.
End Collecting.
End Runs.
