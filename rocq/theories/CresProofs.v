(** * Collecting the results of a cluster: proofs *)
From Coq Require Import QArith Lia Ascii.
From Verif Require Import EpisodeProofs TextProofs CollectProofs CollectFinal CluProofs.
From Verif Require PlotSpec PlotProofs OcolTable.
From Verif Require Import CollectSpec CluSpec CresModel CresSpec Prelude PreludeProofs.
Open Scope string_scope. Open Scope list_scope. Open Scope nat_scope.

(** ** The jobs *)
Lemma types_commas versions names : versions <> [] -> Forall2 (fun version name => algorithm_type version = Ok name) versions names ->
  map_res (fun s => let* n := int s in algorithm_type n) (split_comma "" (commas versions)) = Ok names.
Proof.
  intros N F. unfold commas. rewrite split_concat; [|intros E; apply map_eq_nil in E; contradiction|apply Forall_forall; intros x X; apply in_map_iff in X as (n & <- & _); apply decimal_no_comma].
  clear N. induction F as [|v name vs ns H F IH]; [reflexivity|]. cbn [map map_res]. rewrite int_decimal. cbn [bind]. rewrite H. cbn [bind]. rewrite IH. reflexivity.
Qed.
Lemma collection_job_ok e num_folds its args script : its <> [] -> collection_arguments e num_folds its = Ok args -> collection_job script num_folds (e, its) (mk_job script args None).
Proof.
  intros NE H. split; [reflexivity|]. split; [reflexivity|]. cbn [fst snd j_arguments]. intros names NV F. unfold collection_arguments, option_of in H.
  destruct (dict_get (ex_options e) "working_directory_path") as [w|]; [|discriminate]. cbn [bind] in H. destruct (dict_get (ex_options e) "domain_file_name") as [d|]; [|discriminate]. cbn [bind] in H. apply Ok_inj in H. subst args.
  exists w, d. split; [reflexivity|]. split; [reflexivity|]. unfold numeric_collector, required. cbn [forallb known memb negb]. change (forallb (known collector_options []) _) with true. cbn [negb].
  change (value_of _ "working_directory_path") with (Some w). change (value_of _ "domain_file_name") with (Some d). change (value_of _ "learning_algorithms") with (Some (commas (ex_versions e))).
  change (value_of _ "num_folds") with (Some (decimal num_folds)). change (value_of _ "internal_iterations") with (Some (commas its)). cbn [bind]. rewrite int_decimal. cbn [bind]. rewrite (split_commas its NE). cbn [bind].
  rewrite (types_commas _ _ NV F). reflexivity.
Qed.
Theorem collection_log sbatch code script num_folds experiments l : collection_main sbatch code script num_folds experiments = Ok l ->
  exists its, Forall2 (fun e it => create_internal_iterations_list e = Ok it) experiments its /\ attempts (map (collection_job (code ++ "/" ++ script) num_folds) (combine experiments its)) l.
Proof.
  unfold collection_main. set (script' := (code ++ "/" ++ script)%string). clearbody script'.
  assert (G : forall l0, fold_res (collection_experiment sbatch script' num_folds) experiments l0 = Ok l -> exists its js, l = l0 ++ js /\ Forall2 (fun e it => create_internal_iterations_list e = Ok it) experiments its /\ attempts (map (collection_job script' num_folds) (combine experiments its)) js).
  { induction experiments as [|e es IH]; intros l0 H; cbn [fold_res] in H.
    - apply Ok_inj in H. subst l. exists [], []. rewrite app_nil_r. repeat split; constructor.
    - unfold collection_experiment at 1 in H. destruct (create_internal_iterations_list e) as [it|] eqn:I; [|discriminate]. cbn [bind] in H. destruct (collection_arguments e num_folds it) as [args|] eqn:A; [|discriminate]. cbn [bind] in H.
      destruct (submit_job sbatch l0 (mk_job script' args None)) as [[l1 sid]|] eqn:SJ; [|discriminate]. cbn [bind] in H. apply submit_log in SJ as (js & L1 & N & F). cbn [fst] in L1. subst l1.
      apply IH in H as (its & js' & -> & F2 & AT). exists (it :: its), (js ++ js'). rewrite app_assoc. split; [reflexivity|]. split; [constructor; assumption|]. cbn [combine map]. constructor; [exact N| |exact AT].
      eapply Forall_impl; [|exact F]. cbv beta. intros j ->. apply collection_job_ok; [|exact A]. exact (iterations_nonempty e it I). }
  intros H. destruct (G [] H) as (its & js & -> & F & A). exists its. auto.
Qed.

(** ** The submitted jobs *)
Lemma attempts_In Ps js : attempts Ps js -> forall P, In P Ps -> exists j, In j js /\ P j.
Proof.
  induction 1 as [|P Ps js rest N F A IH]; intros Q I; [destruct I|]. destruct I as [<-|I].
  - destruct js as [|j js]; [contradiction|]. inversion F; subst. exists j. split; [left; reflexivity|assumption].
  - destruct (IH Q I) as (j & J & H). exists j. split; [apply in_or_app; right; exact J|exact H].
Qed.
Lemma Forall2_combine {A B} (R : A -> B -> Prop) l l' a b : Forall2 R l l' -> In a l -> R a b -> (forall x y, R a x -> R a y -> x = y) -> In (a, b) (combine l l').
Proof. intros F I H U. induction F as [|x y l l' E F IH]; [destruct I|]. cbn. destruct I as [->|I]; [left; f_equal; exact (U _ _ E H)|right; exact (IH I)]. Qed.
Lemma job_directory script e fold version n j w : NoDup (map fst (ex_options e)) -> dict_get (ex_options e) "working_directory_path" = Some w -> job_for script e fold version (Some n) j -> value_of (j_arguments j) "working_directory_path" = Some w.
Proof.
  intros ND W (_ & _ & _ & IN). assert (X : In (Arg "working_directory_path" w) (j_arguments j)). { apply IN. right. right. left. exists "working_directory_path", w. split; [apply dict_get_In; exact W|reflexivity]. }
  destruct (value_some _ _ _ X) as [u U]. rewrite U. f_equal. apply value_In, IN in U. destruct U as [U|[U|[(k & v & I & U)|(m & _ & U)]]]; try discriminate U. injection U as <- <-. apply (dict_In_get _ _ _ ND) in I. congruence.
Qed.
Theorem submitted_ran sbatch shown turns code script num_folds experiments l e it w ss : numeric_main sbatch shown turns code script num_folds experiments = Ok l ->
  In e experiments -> configured e -> NoDup (map fst (ex_options e)) -> create_internal_iterations_list e = Ok it -> dict_get (ex_options e) "working_directory_path" = Some w ->
  (forall j, In j l -> value_of (j_arguments j) "working_directory_path" = Some w -> ran ss j) ->
  forall names, Forall2 (fun version name => algorithm_type version = Ok name) (ex_versions e) names ->
  forall k j, In k [Solving; Actions; Numeric] -> In j (jobs num_folds it names) -> In (subject_of k true j) ss.
Proof.
  intros H IE C ND I W RAN names F k [[fold n] name] K J. apply jobs_In in J as (LT & IN & NA). destruct (numeric_log _ _ _ _ _ _ _ _ H) as (its & folders & js & F2 & -> & _ & AT).
  assert (CB : In (e, it) (combine experiments its)) by (eapply Forall2_combine; [exact F2|exact IE|exact I|intros x y X Y; congruence]).
  assert (V : exists version, In version (ex_versions e) /\ algorithm_type version = Ok name).
  { clear - F NA. induction F as [|v m vs ns E F IH]; [destruct NA|]. destruct NA as [->|NA]; [exists v; split; [left; reflexivity|exact E]|]. destruct (IH NA) as (u & U & X). exists u. split; [right; exact U|exact X]. }
  destruct V as (version & IV & TV).
  assert (WI : In (job_for (code ++ "/" ++ script)%string e fold version (Some n)) (flat_map (numeric_wishes (code ++ "/" ++ script) num_folds) (combine experiments its))).
  { apply in_flat_map. exists (e, it). split; [exact CB|]. unfold numeric_wishes. cbn [fst snd]. apply in_flat_map. exists fold. split; [apply in_seq; lia|]. apply in_flat_map. exists version. split; [exact IV|]. apply in_map_iff. exists n. auto. }
  destruct (attempts_In _ _ AT _ WI) as (j & JI & JF). pose proof (numeric_arguments _ _ _ _ _ _ C IV JF) as NR. cbn [subject_of].
  refine (RAN j (in_or_app _ _ _ (or_intror JI)) (job_directory _ _ _ _ _ _ _ ND W JF) _ _ _ _ _ NR TV k K).
Qed.

(** ** The figures *)
Lemma ends_with_iff suffix s : ends_with suffix s = true <-> exists p, s = (p ++ suffix)%string.
Proof.
  induction s as [|c s IH]; cbn [ends_with]; rewrite orb_true_iff.
  - split; [intros [E|E]; [|discriminate]; apply String.eqb_eq in E; exists ""; exact E|]. intros (p & E). left. destruct p; [cbn in E; rewrite <- E; reflexivity|discriminate].
  - rewrite IH. split.
    + intros [E|(p & ->)]; [apply String.eqb_eq in E; exists ""; exact E|exists (String c p); reflexivity].
    + intros (p & E). destruct p as [|c' p]; [left; cbn in E; rewrite <- E; apply String.eqb_refl|right]. injection E as <- E. exists p. exact E.
Qed.
Lemma name_not_combined domain s : ends_with "solving_combined_statistics.csv" (name_of domain s) = false.
Proof.
  destruct (ends_with _ _) eqn:X; [|reflexivity]. exfalso. apply ends_with_iff in X as (q & E). rewrite name_three in E. pose proof (ending_under s) as U. destruct (CollectProofs.ending s) as [[w3 w2] w1] eqn:W. destruct U as (_ & _ & U). unfold three in E.
  replace (q ++ "solving_combined_statistics.csv")%string with (((q ++ "solving_combined") ++ "_" ++ "statistics") ++ ".csv")%string in E by (rewrite !app_r; reflexivity).
  apply append_inj_r in E. apply under_split in E; [|exact U|reflexivity]. destruct E as [_ E]. destruct s as [k' alg f [n|]]; destruct k'; cbn in W; injection W as <- <- <-; try discriminate; clash.
Qed.
Lemma filter_one {V} (p : string -> bool) (d : list (string * V)) name : NoDup (map fst d) -> In name (map fst d) -> p name = true -> (forall n, In n (map fst d) -> n <> name -> p n = false) -> filter p (map fst d) = [name].
Proof.
  generalize (map fst d) as l. clear d. induction l as [|x l IH]; intros ND I P O; [destruct I|]. inversion ND as [|? ? NI ND']; subst. cbn. destruct (string_dec x name) as [->|D].
  - rewrite P. f_equal. apply PlotProofs.filter_nil_iff. intros y Y. apply O; [right; exact Y|intros ->; contradiction].
  - rewrite (O x (or_introl eq_refl) D). apply IH; [exact ND'|destruct I as [I|I]; [contradiction|exact I]|exact P|]. intros y Y. apply O. right. exact Y.
Qed.

Section Figures.
Variables (std : list Q -> option Q) (percent : string -> Q) (V : Type) (show : V -> string) (domain : string) (results : subject -> rows V).
Lemma performed_keys ss : reportable V results ss -> forall d, NoDup (map fst d) -> NoDup (map fst (fst (perform_all V show domain results ss d))) /\
  forall n, In n (map fst (fst (perform_all V show domain results ss d))) -> In n (map fst d) \/ exists s, In s ss /\ n = name_of domain s.
Proof.
  unfold CollectSpec.perform_all. intros R. induction ss as [|s ss IH] using rev_ind; intros d ND; [split; [exact ND|auto]|].
  destruct (perform_all_gen V show domain results ss d) as (d' & E & _); [intros s' r I; apply R; apply in_or_app; left; exact I|]. unfold CollectSpec.perform_all in E.
  destruct (IH (fun s' r I => R s' r (in_or_app _ _ _ (or_introl I))) d ND) as (ND' & K). rewrite E in ND', K. cbn [fst] in ND', K. rewrite fold_left_app, E. cbn [fold_left snd fst].
  rewrite perform_ok; [|intros r X; apply (R s r); [apply in_or_app; right; left; reflexivity|exact X]]. cbn [fst]. split; [apply dict_set_keys_NoDup; exact ND'|].
  intros n I. apply dict_set_keys_In in I as [->|I]; [right; exists s; split; [apply in_or_app; right; left; reflexivity|reflexivity]|]. destruct (K n I) as [J|(s' & J & ->)]; [left; exact J|right; exists s'; split; [apply in_or_app; left; exact J|reflexivity]].
Qed.
Lemma get_combine (c : list string) (g : string -> string) k : In k c -> dict_get (combine c (map g c)) k = Some (g k).
Proof.
  induction c as [|x c IH]; intros I; [destruct I|]. cbn [map combine dict_get fst snd]. destruct (eq_dec k x) as [->|D]; [reflexivity|]. apply IH. destruct I as [I|I]; [congruence|exact I].
Qed.
Lemma combined_results js : forall ss, names_itself show results ss -> (forall j, In j js -> In (subject_of Solving true j) ss) ->
  exists rows, map_res (result_of percent) (read_csv (collected V show results Solving true js)) = Ok rows /\
    Forall2 (shown_row show percent) (flat_map (fun j => results (subject_of Solving true j)) js) rows.
Proof.
  intros ss REP IN. unfold read_csv, collected. cbn [csv_header csv_lines]. rewrite flat_map_concat_map, concat_map, map_map, <- flat_map_concat_map.
  assert (ONE : forall j, In j js -> exists rows, map_res (result_of percent) (map (fun line => fold_left (fun d kv => dict_set d (fst kv) (snd kv)) (combine ("fold" :: columns_of Solving) line) [])
      (map (fun r => decimal (fst (fst j)) :: line_of show (columns_of Solving) r) (results (subject_of Solving true j)))) = Ok rows /\ Forall2 (shown_row show percent) (results (subject_of Solving true j)) rows).
  { intros j J. assert (KD : s_kind (subject_of Solving true j) = Solving) by (destruct j as [[f n] a]; reflexivity).
    pose proof (fun r => REP _ r (IN j J) KD) as RR. clear REP KD J. set (f := decimal (fst (fst j))). clearbody f. revert RR. generalize (results (subject_of Solving true j)) as rs. intros rs RR.
    assert (ROW : forall r, In r rs -> exists x, result_of percent (fold_left (fun d kv => dict_set d (fst kv) (snd kv)) (combine ("fold" :: columns_of Solving) (f :: line_of show (columns_of Solving) r)) []) = Ok x /\ shown_row show percent r x).
    { intros r R. destruct (RR r R) as (_ & (v' & n & G' & SN)).
      rewrite set_fresh; [|cbn [dict_keys map app]; rewrite combine_keys; [apply columns_nodup|cbn [length]; f_equal; unfold line_of; apply map_length]]. cbn [app]. set (row := combine _ _).
      assert (FD : forall k, k <> "fold" -> In k (columns_of Solving) -> field row k = text_of show r k).
      { intros k NK I. unfold field, row. cbn [combine dict_get]. destruct (eq_dec k "fold") as [E|_]; [congruence|]. unfold line_of. rewrite (get_combine _ (fun c => match dict_get r c with Some v => show v | None => "" end) k I). reflexivity. }
      unfold result_of. rewrite (FD "num_trajectories"); [|discriminate|cbn; tauto]. unfold text_of at 1. rewrite G', SN, int_decimal. cbn [bind]. eexists. split; [reflexivity|].
      unfold shown_row. cbn [r_alg r_policy r_num r_ok]. rewrite (FD "learning_algorithm"), (FD "policy"), (FD "percent_ok"); [|discriminate|cbn; tauto|discriminate|cbn; tauto|discriminate|cbn; tauto].
      split; [reflexivity|]. split; [reflexivity|]. split; [unfold text_of; rewrite G'; symmetry; exact SN|reflexivity]. }
    clear RR. induction rs as [|r l IH]; [exists []; split; [reflexivity|constructor]|]. destruct (ROW r (or_introl eq_refl)) as (x & X & A). destruct IH as (xs & XS & AA); [intros y Y; apply ROW; right; exact Y|].
    exists (x :: xs). cbn [map map_res]. rewrite X. cbn [bind]. rewrite XS. cbn [bind]. split; [reflexivity|]. constructor; assumption. }
  clear IN REP. induction js as [|j js IH]; [exists []; split; [reflexivity|constructor]|].
  destruct (ONE j (or_introl eq_refl)) as (xs & XS & A). destruct IH as (ys & YS & B); [intros i I; apply ONE; right; exact I|]. exists (xs ++ ys). cbn [flat_map]. split; [apply OcolTable.map_res_app; assumption|]. apply Forall2_app; assumption.
Qed.
Lemma Forall2_right {A B} (R : A -> B -> Prop) l l' : Forall2 R l l' -> forall b, In b l' -> exists a, In a l /\ R a b.
Proof. induction 1 as [|x y l l' H F IH]; intros b []; [subst; exists x; split; [left; reflexivity|exact H]|]. destruct (IH b H0) as (a & I & E). exists a. split; [right; exact I|exact E]. Qed.
Lemma row_algorithms js ss rows : names_itself show results ss -> (forall j, In j js -> In (subject_of Solving true j) ss) ->
  Forall2 (shown_row show percent) (flat_map (fun j => results (subject_of Solving true j)) js) rows ->
  (forall r, In r rows -> exists fold n, In (fold, n, r_alg r) js) /\
  ((forall s, In s ss -> s_kind s = Solving -> results s <> []) -> forall fold n a, In (fold, n, a) js -> exists r, In r rows /\ r_alg r = a).
Proof.
  intros REP IN F. assert (AL : forall f n a r, In (f, n, a) js -> In r (results (subject_of Solving true (f, n, a))) -> text_of show r "learning_algorithm" = a).
  { intros f n a r J R. destruct (REP _ r (IN _ J) eq_refl R) as ((v & G & SV) & _). unfold text_of. rewrite G. exact SV. }
  split.
  - intros r I. destruct (Forall2_right _ _ _ F r I) as (x & X & (E & _)). apply in_flat_map in X as ([[f n] a] & J & X). rewrite E, (AL f n a x J X). eauto.
  - intros NE f n a J. destruct (results (subject_of Solving true (f, n, a))) as [|x xs] eqn:R; [exfalso; exact (NE _ (IN _ J) eq_refl R)|]. assert (X : In x (flat_map (fun j => results (subject_of Solving true j)) js)) by (apply in_flat_map; exists (f, n, a); split; [exact J|rewrite R; left; reflexivity]).
    destruct (PlotProofs.Forall2_left _ _ _ F x X) as (r & I & (E & _)). exists r. split; [exact I|]. rewrite E. apply (AL f n a); [exact J|rewrite R; left; reflexivity].
Qed.
Definition TARGET := "solving_combined_statistics.csv".
Lemma draw_one make d f rows : filter (ends_with TARGET) (map fst d) = [TARGET] -> dict_get d TARGET = Some f -> map_res (result_of percent) (read_csv f) = Ok rows ->
  draw percent make TARGET d = match make rows with Ok _ => (d, None) | Err e => (d, Some e) end.
Proof. intros F G M. unfold draw. rewrite F. cbn [fold_res]. rewrite G, M. cbn [bind]. destruct (make rows); reflexivity. Qed.
Lemma drawn algorithms num_folds iterations ss : reportable V results ss -> names_itself show results ss ->
  (forall j, In j (jobs num_folds iterations algorithms) -> In (subject_of Solving true j) ss) ->
  exists d1 d2 rows, perform_all V show domain results ss [] = (d1, None) /\ collect_solving_statistics algorithms num_folds iterations false d1 = (d2, None) /\
    d2 = dict_set d1 TARGET (collected V show results Solving true (jobs num_folds iterations algorithms)) /\
    (forall n, (forall s, In s ss -> n <> name_of domain s) -> dict_get d1 n = None) /\
    (forall make, draw percent make TARGET d2 = match make rows with Ok _ => (d2, None) | Err e => (d2, Some e) end) /\
    map_res (result_of percent) (read_csv (collected V show results Solving true (jobs num_folds iterations algorithms))) = Ok rows /\
    Forall2 (shown_row show percent) (flat_map (fun j => results (subject_of Solving true j)) (jobs num_folds iterations algorithms)) rows.
Proof.
  intros R REP IN. destruct (perform_all_gen V show domain results ss [] R) as (d1 & E & A & FR). destruct (performed_keys ss R [] (NoDup_nil _)) as (ND & K). rewrite E in ND, K. cbn [fst] in ND, K.
  pose proof (collecting_ok V show domain results algorithms num_folds iterations None Solving false d1 (fun _ => eq_refl) (fun j I => A _ (IN j I))) as C. cbn [can_exclude CollectSpec.kept negb CollectSpec.collecting] in C. change (target Solving false) with TARGET in C.
  destruct (combined_results (jobs num_folds iterations algorithms) ss REP IN) as (rows & ROWS & ALG). exists d1, (dict_set d1 TARGET (collected V show results Solving true (jobs num_folds iterations algorithms))), rows.
  split; [exact E|]. split; [exact C|]. split; [reflexivity|]. split; [exact FR|]. split; [|split; [exact ROWS|exact ALG]].
  intros make. apply (draw_one make _ (collected V show results Solving true (jobs num_folds iterations algorithms))); [|apply dict_get_set_same|exact ROWS]. apply filter_one.
  - apply dict_set_keys_NoDup. exact ND.
  - apply dict_set_keys_In. left. reflexivity.
  - reflexivity.
  - intros n I D. apply dict_set_keys_In in I as [I|I]; [contradiction|]. destruct (K n I) as [[]|(s' & _ & ->)]. apply name_not_combined.
Qed.
Definition three_names := ["numeric_sam"; "naive_nsam"; "plan_miner"].
Theorem figures_whole algorithms num_folds iterations ss : reportable V results ss -> reports_itself show results ss -> 0 < num_folds -> iterations <> [] -> (forall a, In a algorithms <-> In a three_names) ->
  (forall k j, In k [Solving; Actions; Numeric] -> In j (jobs num_folds iterations algorithms) -> In (subject_of k true j) ss) ->
  exists d1 d2, perform_all V show domain results ss [] = (d1, None) /\ collect_with_figures std percent algorithms num_folds iterations domain d1 = (d2, None) /\
    (forall k, In k [Solving; Actions; Numeric] -> dict_get d2 (collected_name k ++ ".csv")%string = Some (collected V show results k true (jobs num_folds iterations algorithms))) /\
    (forall name, ~ In name (map (fun k => collected_name k ++ ".csv")%string [Solving; Actions; Numeric]) -> dict_get d2 name = dict_get d1 name) /\
    (exists rows figure solo, map_res (result_of percent) (read_csv (collected V show results Solving true (jobs num_folds iterations algorithms))) = Ok rows /\
       Forall2 (shown_row show percent) (flat_map (fun j => results (subject_of Solving true j)) (jobs num_folds iterations algorithms)) rows /\ nsam_figure std rows = Ok figure /\ solo_figure std rows = Ok solo).
Proof.
  intros R REP NF NI AL IN. destruct (drawn algorithms num_folds iterations ss R (proj1 REP) (fun j J => IN Solving j (or_introl eq_refl) J)) as (d1 & d2 & rows & E & C & D2 & _ & DR & ROWS & SHOWN). destruct (row_algorithms _ ss rows (proj1 REP) (fun j J => IN Solving j (or_introl eq_refl) J) SHOWN) as (ALG1 & ALG2).
  destruct (numeric_whole V show domain results algorithms num_folds iterations ss [] R IN) as (d1' & d3 & E' & C' & FILES1 & FILES2). rewrite E in E'. injection E' as <-. exists d1, d3. split; [exact E|].
  assert (SET : forall a, (exists r, In r rows /\ r_alg r = a) <-> In a three_names).
  { intros a. rewrite <- AL. split; [intros (r & I & <-); destruct (ALG1 r I) as (f & n & J); apply jobs_In in J; tauto|]. intros I. destruct iterations as [|n its]; [contradiction|]. apply (ALG2 (proj2 REP) 0 n). apply jobs_In. split; [exact NF|]. split; [left; reflexivity|exact I]. }
  assert (NINC : forall r, In r rows -> r_alg r <> "incremental_nsam" /\ r_alg r <> "naive_nsam_no_dependency_removal").
  { intros r I. assert (X : In (r_alg r) three_names) by (apply SET; eauto). cbn in X. destruct X as [<-|[<-|[<-|[]]]]; split; discriminate. }
  assert (F1 : exists f, nsam_figure std rows = Ok f).
  { apply PlotProofs.nsam_iff. intros a. change (map fst PlotSpec.titles) with three_names. rewrite <- SET. unfold PlotSpec.kept. split; intros (r & I & X).
    - apply filter_In in I as (I & _). eauto.
    - exists r. split; [|exact X]. apply filter_In. split; [exact I|]. destruct (NINC r I) as (N & _). apply String.eqb_neq in N. rewrite N. reflexivity. }
  assert (F2 : exists f, solo_figure std rows = Ok f).
  { apply PlotProofs.solo_spec. intros r I. unfold PlotSpec.kept_solo in I. apply filter_In in I as (I & _). change (map fst PlotSpec.titles) with three_names. apply SET. eauto. }
  destruct F1 as (f1 & F1), F2 as (f2 & F2). pose proof (DR (nsam_figure std)) as D1. pose proof (DR (solo_figure std)) as D3. rewrite F1 in D1. rewrite F2 in D3.
  split; [|split; [exact FILES1|split; [exact FILES2|exists rows, f1, f2; auto]]]. unfold collect_with_figures. rewrite C. unfold and_then at 4. cbn [snd fst]. change "solving_combined_statistics.csv" with TARGET. rewrite D1. unfold and_then at 3. cbn [snd fst]. rewrite D3.
  unfold collect_numeric_statistics in C'. rewrite C in C'. unfold and_then at 2 in C'. unfold and_then at 2. cbn [snd fst] in C' |- *. exact C'.
Qed.
Theorem figures_stop algorithms num_folds iterations ss a : reportable V results ss -> names_itself show results ss -> In a three_names -> ~ In a algorithms ->
  (forall j, In j (jobs num_folds iterations algorithms) -> In (subject_of Solving true j) ss) ->
  exists d1 d2 e, perform_all V show domain results ss [] = (d1, None) /\ collect_with_figures std percent algorithms num_folds iterations domain d1 = (d2, Some e) /\
    dict_get d2 "solving_combined_statistics.csv" = Some (collected V show results Solving true (jobs num_folds iterations algorithms)) /\
    dict_get d2 "syntactic_performance_combined_statistics.csv" = None /\ dict_get d2 "numeric_performance_combined_statistics.csv" = None.
Proof.
  intros R REP T NA IN. destruct (drawn algorithms num_folds iterations ss R REP IN) as (d1 & d2 & rows & E & C & D2 & FR & DR & _ & SHOWN). destruct (row_algorithms _ ss rows REP IN SHOWN) as (ALG1 & _). exists d1, d2.
  assert (F : exists e, nsam_figure std rows = Err e).
  { destruct (nsam_figure std rows) as [f|e] eqn:F; [|eauto]. exfalso. pose proof (proj1 (PlotProofs.nsam_iff std rows) (ex_intro _ f F) a) as I. apply proj2 in I. specialize (I T). destruct I as (r & I & X). unfold PlotSpec.kept in I. apply filter_In in I as (I & _).
    destruct (ALG1 r I) as (fo & n & J). apply jobs_In in J. rewrite X in J. tauto. }
  destruct F as (e & F). exists e. split; [exact E|]. split.
  - pose proof (DR (nsam_figure std)) as D1. rewrite F in D1. unfold collect_with_figures. rewrite C. unfold and_then at 4. cbn [snd fst]. change "solving_combined_statistics.csv" with TARGET. rewrite D1. reflexivity.
  - rewrite D2. split; [apply dict_get_set_same|]. split; (rewrite dict_get_set_other; [|discriminate]); apply FR; intros s _ X.
    + exact (target_not_name domain Actions false s (eq_sym X)).
    + exact (target_not_name domain Numeric false s (eq_sym X)).
Qed.
End Figures.

Lemma types_of versions : Forall (fun v => In v [3; 5; 15]) versions -> exists names, Forall2 (fun version name => algorithm_type version = Ok name) versions names /\
  (forall a, In a names -> In a three_names) /\ ((forall v, In v [3; 5; 15] -> In v versions) -> forall a, In a three_names -> In a names) /\
  (forall v, In v [3; 5; 15] -> ~ In v versions -> exists a, algorithm_type v = Ok a /\ In a three_names /\ ~ In a names).
Proof.
  intros F. assert (EX : exists names, Forall2 (fun version name => algorithm_type version = Ok name) versions names /\ forall v a, In v [3; 5; 15] -> algorithm_type v = Ok a -> (In v versions <-> In a names)).
  { induction F as [|v vs I F (ns & F2 & IFF)]; [exists []; split; [constructor|intros; split; intros []]|].
    assert (X : exists a, algorithm_type v = Ok a) by (destruct I as [<-|[<-|[<-|[]]]]; eexists; reflexivity). destruct X as (a & X). exists (a :: ns). split; [constructor; assumption|]. intros v' a' I' X'. cbn [In].
    assert (INJ : v = v' <-> a = a'). { destruct I as [<-|[<-|[<-|[]]]], I' as [<-|[<-|[<-|[]]]]; vm_compute in X, X'; apply Ok_inj in X; apply Ok_inj in X'; subst a a'; split; intros H; try discriminate H; reflexivity. }
    rewrite INJ, (IFF v' a' I' X'). reflexivity. }
  destruct EX as (names & F2 & IFF). exists names. split; [exact F2|]. split; [|split].
  - intros a I. clear IFF. induction F2 as [|v a' vs ns E F2 IH]; [destruct I|]. inversion F as [|? ? V F']; subst. destruct I as [->|I]; [|exact (IH F' I)]. destruct V as [<-|[<-|[<-|[]]]]; vm_compute in E; apply Ok_inj in E; subst a; cbn; tauto.
  - intros ALL a [<-|[<-|[<-|[]]]]; [apply (IFF 3); [cbn; tauto|reflexivity|]|apply (IFF 15); [cbn; tauto|reflexivity|]|apply (IFF 5); [cbn; tauto|reflexivity|]]; apply ALL; cbn; tauto.
  - intros v I N. assert (X : exists a, algorithm_type v = Ok a /\ In a three_names) by (destruct I as [<-|[<-|[<-|[]]]]; eexists; split; try reflexivity; cbn; tauto). destruct X as (a & X & T). exists a. split; [exact X|]. split; [exact T|]. intros J. apply N. apply (IFF v a I X). exact J.
Qed.

Section Cluster.
Variables (V : Type) (show : V -> string) (domain : string) (results : subject -> list (list (string * V))) (std : list Q -> option Q) (percent : string -> Q).
Theorem submitted_collected sbatch shown turns code script num_folds experiments l e it ss script' c w :
  numeric_main sbatch shown turns code script num_folds experiments = Ok l -> 0 < num_folds -> In e experiments -> configured e -> NoDup (map fst (ex_options e)) -> (forall v, In v [3; 5; 15] -> In v (ex_versions e)) ->
  create_internal_iterations_list e = Ok it -> collection_job script' num_folds (e, it) c -> dict_get (ex_options e) "working_directory_path" = Some w ->
  (forall j, In j l -> value_of (j_arguments j) "working_directory_path" = Some w -> ran ss j) -> reportable V results ss -> reports_itself show results ss ->
  exists file names d1 d2, numeric_collector (j_arguments c) = Ok (w, file, names, num_folds, it) /\ dict_get (ex_options e) "domain_file_name" = Some file /\
    Forall2 (fun version name => algorithm_type version = Ok name) (ex_versions e) names /\
    perform_all V show domain results ss [] = (d1, None) /\ collect_with_figures std percent names num_folds it domain d1 = (d2, None) /\
    (forall k, In k [Solving; Actions; Numeric] -> dict_get d2 (collected_name k ++ ".csv")%string = Some (collected V show results k true (jobs num_folds it names))) /\
    (forall name, ~ In name (map (fun k => collected_name k ++ ".csv")%string [Solving; Actions; Numeric]) -> dict_get d2 name = dict_get d1 name) /\
    (exists rows figure solo, map_res (result_of percent) (read_csv (collected V show results Solving true (jobs num_folds it names))) = Ok rows /\
       Forall2 (shown_row show percent) (flat_map (fun j => results (subject_of Solving true j)) (jobs num_folds it names)) rows /\ nsam_figure std rows = Ok figure /\ solo_figure std rows = Ok solo).
Proof.
  intros H NF IE C ND ALL I CJ W RAN R REP. destruct C as (C1 & C2 & C3). destruct (types_of _ C3) as (names & F2 & SUB & SUP & _). destruct CJ as (_ & _ & CJ). cbn [fst snd] in CJ.
  destruct (CJ names) as (w' & file & W' & FI & NC); [intros E; specialize (ALL 3 (or_introl eq_refl)); rewrite E in ALL; exact ALL|exact F2|]. rewrite W in W'. injection W' as <-.
  destruct (figures_whole std percent V show domain results names num_folds it ss R REP NF) as (d1 & d2 & P & CF & FILES).
  - exact (iterations_nonempty e it I).
  - intros a. split; [apply SUB|apply SUP; exact ALL].
  - exact (submitted_ran sbatch shown turns code script num_folds experiments l e it w ss H IE (conj C1 (conj C2 C3)) ND I W RAN names F2).
  - exists file, names, d1, d2. split; [exact NC|]. split; [exact FI|]. split; [exact F2|]. split; [exact P|]. split; [exact CF|exact FILES].
Qed.
Theorem submitted_stopped sbatch shown turns code script num_folds experiments l e it ss script' c w v :
  numeric_main sbatch shown turns code script num_folds experiments = Ok l -> In e experiments -> configured e -> NoDup (map fst (ex_options e)) -> ex_versions e <> [] -> In v [3; 5; 15] -> ~ In v (ex_versions e) ->
  create_internal_iterations_list e = Ok it -> collection_job script' num_folds (e, it) c -> dict_get (ex_options e) "working_directory_path" = Some w ->
  (forall j, In j l -> value_of (j_arguments j) "working_directory_path" = Some w -> ran ss j) -> reportable V results ss -> names_itself show results ss ->
  exists file names d1 d2 x, numeric_collector (j_arguments c) = Ok (w, file, names, num_folds, it) /\
    perform_all V show domain results ss [] = (d1, None) /\ collect_with_figures std percent names num_folds it domain d1 = (d2, Some x) /\
    dict_get d2 "solving_combined_statistics.csv" = Some (collected V show results Solving true (jobs num_folds it names)) /\
    dict_get d2 "syntactic_performance_combined_statistics.csv" = None /\ dict_get d2 "numeric_performance_combined_statistics.csv" = None.
Proof.
  intros H IE C ND NE IV NV I CJ W RAN R REP. destruct C as (C1 & C2 & C3). destruct (types_of _ C3) as (names & F2 & _ & _ & MISS). destruct (MISS v IV NV) as (a & _ & T & NA). destruct CJ as (_ & _ & CJ). cbn [fst snd] in CJ.
  destruct (CJ names NE F2) as (w' & file & W' & FI & NC). rewrite W in W'. injection W' as <-.
  destruct (figures_stop std percent V show domain results names num_folds it ss a R REP T NA) as (d1 & d2 & x & P & CF & FILES).
  - intros j J. exact (submitted_ran sbatch shown turns code script num_folds experiments l e it w ss H IE (conj C1 (conj C2 C3)) ND I W RAN names F2 Solving j (or_introl eq_refl) J).
  - exists file, names, d1, d2, x. split; [exact NC|]. split; [exact P|]. split; [exact CF|exact FILES].
Qed.
End Cluster.

Theorem unknown_option script e fold version n j key : In key (map fst (ex_options e)) -> ~ In key runner_options -> job_for script e fold version (Some n) j -> numeric_runner (j_arguments j) = Err RuntimeError.
Proof.
  intros K N (_ & _ & _ & IN). apply in_map_iff in K as ([k v] & <- & K). cbn [fst] in N. unfold numeric_runner. destruct (forallb (known runner_options []) (j_arguments j)) eqn:F; [|reflexivity]. exfalso.
  rewrite forallb_forall in F. assert (X : In (Arg k v) (j_arguments j)) by (apply IN; right; right; left; eauto). apply F in X. cbn [known] in X. apply memb_In in X. contradiction.
Qed.
