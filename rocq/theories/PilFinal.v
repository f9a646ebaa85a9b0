(** * One fold of online learning: all problems, files and safety *)
From Coq Require Import Lia.
From Verif Require Import NoamSpec NoamLearn NoamRun NoamSolve NoamPlan NoamFinal OnumTrain OnumFinal SemiSpec SemiProofs SemiFinal EpisodeProofs TextProofs VocabProofs OcolSpec OcolProofs OcolTable OcolFinal PilModel PilSpec PilProofs Prelude PreludeProofs.
Open Scope string_scope. Open Scope list_scope. Open Scope nat_scope.
Notation episodes := (EpisodeSpec.episodes world call).

(** ** The problem files *)
Lemma substring_split s : forall n m, String.length s <= n + m -> (String.substring 0 n s ++ String.substring n m s)%string = s.
Proof.
  induction s as [|c s IH]; intros [|n] m L; cbn in *; [destruct m; reflexivity|destruct m; reflexivity| |].
  - destruct m as [|m]; [lia|]. cbn. f_equal. specialize (IH 0 m ltac:(cbn; lia)). destruct s; [destruct m; reflexivity|]. cbn in IH. exact IH.
  - f_equal. apply IH. lia.
Qed.
Lemma stem_name x s : pddl_stem x = Some s -> x = (s ++ ".pddl")%string.
Proof.
  unfold pddl_stem. destruct (String.eqb _ ".pddl") eqn:E; [|discriminate]. apply String.eqb_eq in E. intros [= <-]. rewrite <- E. symmetry. apply substring_split. lia.
Qed.
Lemma stem_app_pddl s : pddl_stem (s ++ ".pddl") = Some s.
Proof.
  unfold pddl_stem. rewrite string_length_app. replace (String.length s + String.length ".pddl" - 5) with (String.length s) by (cbn [String.length]; lia). rewrite substring_app.
  assert (X : String.substring (String.length s) 5 (s ++ ".pddl") = ".pddl") by (induction s as [|c s IH]; [reflexivity|exact IH]). rewrite X. reflexivity.
Qed.
Lemma read_holds d x P : read_problem d x = Ok P -> file_holds d x P.
Proof.
  unfold read_problem. destruct (dict_get d x) as [[(init & E)|e]|] eqn:G; try discriminate. destruct (pddl_stem x) as [s|] eqn:S; [|discriminate]. intros [= <-]. split; [apply stem_name; exact S|exact G].
Qed.
Lemma names_files d prefix : NoDup (dict_keys d) -> problem_files d prefix (problem_names d prefix).
Proof.
  intros ND. unfold problem_names. split; [apply sorted_sorted; apply NoDup_filter'; exact ND|]. intros x.
  assert (PX : In x (sorted_names (filter (glob_match [prefix; ".pddl"]) (dict_keys d))) <-> In x (filter (glob_match [prefix; ".pddl"]) (dict_keys d))) by (split; apply Permutation_in; [apply Permutation_sym|]; apply sorted_perm).
  rewrite PX, filter_In, glob_cons. apply and_iff_compat_l. unfold is_problem. split.
  - intros (y & z & -> & G). apply glob_one in G. subst z. exists y. reflexivity.
  - intros (y & ->). exists y, ".pddl". split; [reflexivity|apply glob_one; reflexivity].
Qed.
Lemma names_unique d prefix names : NoDup (dict_keys d) -> problem_files d prefix names -> names = problem_names d prefix.
Proof.
  intros ND (S & I). destruct (names_files d prefix ND) as (S' & I'). refine (sorted_unique _ _ _ _ S S' _); [intros x y; apply lt_name_asym|].
  assert (NDS : forall l, StronglySorted (fun a b => String.ltb a b = true) l -> NoDup l).
  { intros l SS. induction SS as [|x l SS IH F]; constructor; [|exact IH]. intros X. rewrite Forall_forall in F. specialize (F x X). rewrite ltb_irrefl in F. discriminate. }
  apply NoDup_Permutation; [apply NDS; exact S|apply NDS; exact S'|]. intros x. rewrite I, I'. reflexivity.
Qed.
Lemma reads_all d ns problems : map_res (read_problem d) ns = Ok problems -> Forall2 (file_holds d) ns problems.
Proof. intros X. apply map_res_Ok in X. induction X as [|x P ns problems H _ IH]; constructor; [apply read_holds; exact H|exact IH]. Qed.
Lemma holds_sets d ns problems : action_sets_in d -> Forall2 (file_holds d) ns problems -> action_sets problems.
Proof. intros AS F P I. destruct (Forall2_In_l _ _ _ _ F I) as (x & _ & (_ & G)). exact (AS _ _ _ G). Qed.
Lemma holds_real dom real d ns problems : real_dir dom real d -> Forall2 (file_holds d) ns problems -> real_problems dom real problems.
Proof. intros AS F P I. destruct (Forall2_In_l _ _ _ _ F I) as (x & _ & (_ & G)). exact (AS _ _ _ G). Qed.

(** ** Rows *)
Lemma trial_row names n P t r : row_of world call c_name names n (ops_of P (tr_steps t), end_of P t) r -> reported names n (P, as_visit t) r.
Proof.
  intros R. apply row_reported. assert (E : vi_steps (as_visit t) = tr_steps t) by (unfold vi_steps; cbn; apply app_nil_r). rewrite E. exact R.
Qed.
Lemma reported_more names n Pv (r : row) alg fold : reported names n Pv r ->
  let r' := dict_set (dict_set r "algorithm_type" (CText alg)) "fold_number" (CNat fold) in
  reported names n Pv r' /\ dict_get r' "algorithm_type" = Some (CText alg) /\ dict_get r' "fold_number" = Some (CNat fold).
Proof.
  intros R. cbn zeta. assert (G : forall k, k <> "algorithm_type" -> k <> "fold_number" -> dict_get (dict_set (dict_set r "algorithm_type" (CText alg)) "fold_number" (CNat fold)) k = dict_get r k) by (intros k N1 N2; rewrite (dict_get_set_other _ "fold_number") by (first [exact N2|congruence]); apply dict_get_set_other; first [exact N1|congruence]).
  split; [|split; [rewrite dict_get_set_other by discriminate; apply dict_get_set_same|apply dict_get_set_same]].
  destruct Pv as (P & v). unfold reported in *. destruct R as (R0 & R). split.
  - intros a A. destruct (R0 a A) as (X & Y). rewrite !G by discriminate. auto.
  - rewrite !G by discriminate. exact R.
Qed.
Lemma summarized_table names alg fold : forall pvs rows n, EpisodeSpec.numbered (reported names) n pvs rows ->
  EpisodeSpec.numbered (fun n Pv r => reported names n Pv r /\ dict_get r "algorithm_type" = Some (CText alg) /\ dict_get r "fold_number" = Some (CNat fold)) n pvs (summarized alg fold rows).
Proof.
  induction pvs as [|Pv pvs IH]; intros [|r rows] n N; try (exfalso; exact N); [exact I|]. destruct N as (N1 & N2). cbn [summarized map EpisodeSpec.numbered]. split; [apply reported_more; exact N1|apply IH; exact N2].
Qed.
Lemma export_only out alg fold rows : only_file out (statistics_file alg fold) (summarized alg fold rows) (export_statistics out alg fold rows).
Proof. unfold export_statistics. split; [apply dict_get_set_same|]. intros y N. apply dict_get_set_other. congruence. Qed.

Section Final.
Variable le : text -> text -> bool.
Variables unit fine : positive.
Variable fit : list (list Q) -> list Q -> list Q * Q * bool.
Variable hull : list (list Q) -> option (list (list Q) * list Q).
Variable schmidt : list (list Q) -> list (list Q) -> list (list Q).
Variable rank : list (list Q) -> nat.
Variable svm : list (list Q * bool) -> list Q * Q.
Variable limit : nat.
Variable flatten : bool.
Variable dom : domain.
Variable rd : random.
Variables starvation min_episodes min_executions max_steps max_failed max_file : nat.
Variable solvers : list solver.
Hypothesis FAIR : fair rd.
Notation names := (dict_keys (d_actions dom)).
Hypothesis PLAIN : Forall plain_name names.
Variable degree : nat.
Notation tables := (NoamLearn.tables dom).
Notation learned_by := (numeric_train le unit fit hull schmidt dom degree).
Notation safe_after := (SemiSpec.safe_after le unit fine fit hull schmidt rank flatten dom degree).
Notation optimistic_after := (SemiSpec.optimistic_after le unit fine fit hull schmidt rank svm limit flatten dom degree).
Notation tried := (tried safe_after optimistic_after solvers max_steps max_failed).
Notation all_tried := (all_tried safe_after optimistic_after solvers max_steps max_failed).
Notation all_visited := (all_visited safe_after optimistic_after solvers names min_episodes min_executions max_steps max_failed max_file).
Notation loop := (pil_loop unit fine fit hull schmidt rank svm limit flatten dom rd starvation max_steps max_failed max_file solvers).
Notation episode := (pil_episode unit fine fit hull schmidt rank svm limit flatten dom rd starvation max_steps max_failed max_file solvers).
Notation learning := (learn_model_online le unit fine fit hull schmidt rank svm limit flatten dom rd starvation min_episodes min_executions max_steps max_failed max_file solvers).
Notation main := (pil_main le unit fine fit hull schmidt rank svm limit flatten dom rd starvation min_episodes min_executions max_steps max_failed max_file solvers).

(** ** The loop *)
Record ready (os : list (op world call)) (learned : list (list ncomponent)) (M : noam) : Prop := {
  rd_rec : exists r0, nm_rec M = clear_trajectory world call r0 /\ record_inv names os r0;
  rd_open : snd (episodes os) = [];
  rd_learn : learned_by learned = Ok (nm_learners M);
  rd_tables : tables (nm_failures M) }.
Lemma episode_ready os learned k P M M' goal : NoDup (en_actions (pr_env P)) -> ready os learned M -> episode k P M = Ok (M', goal) ->
  exists t os', tr_goal t = goal /\ tried k learned P t /\ ready os' (learned ++ tr_lesson t) M' /\ fst (episodes os') = fst (episodes os) ++ [(ops_of P (tr_steps t), end_of P t)].
Proof.
  intros ND [(r0 & ER & V) O L T]. unfold pil_episode. set (M0 := with_rec M _).
  assert (V0 : record_inv names (os ++ ops_of P []) (nm_rec M0)).
  { destruct (do_op_inv world call c_name 0 names os r0 (ClearTrajectory world call) PLAIN V I) as (r1 & E1 & V1). cbn [do_op] in E1. injection E1 as <-. rewrite <- ER in V1.
    destruct (do_op_inv world call c_name 0 names _ _ (Grounded world call (length (en_actions (pr_env P)))) PLAIN V1 I) as (r2 & E2 & V2). cbn [do_op] in E2. injection E2 as <-. unfold ops_of. cbn [map]. rewrite app_nil_r. rewrite <- app_assoc in V2. exact V2. }
  assert (TJ : r_traj world call (nm_rec M0) = []) by (unfold M0; cbn [with_rec nm_rec]; rewrite ER; reflexivity).
  destruct (try_to_solve _ _ _ _ _ _ _ _ _ _ _ _ _ _ _ _ _ M0 _) as [(M1 & (g & n))|] eqn:X; [|discriminate]. cbn [bind]. intros Y. injection Y as <- <-.
  destruct (trying_spec le unit fine fit hull schmidt rank svm limit flatten dom rd starvation max_steps max_failed max_file FAIR PLAIN degree solvers os learned k P M0 M1 g n ND L T V0 TJ X) as (t & EG & TR & L1 & T1 & V1).
  exists t. eexists. split; [exact EG|]. split; [exact TR|]. split.
  - constructor; [exists (nm_rec M1); split; [reflexivity|exact V1]| |exact L1|exact T1]. rewrite episodes_snoc. reflexivity.
  - rewrite episodes_snoc, episodes_ops, O. reflexivity.
Qed.
Lemma loop_ready alg fold k d : action_sets_in d -> forall ns M os learned a0 t0 M' a1 t1, ready os learned M -> loop alg fold k d ns M a0 t0 = Ok (M', a1, t1) ->
  exists problems ts os', Forall2 (file_holds d) ns problems /\ all_tried k learned problems ts /\ ready os' (learned ++ concat (map tr_lesson ts)) M' /\
    fst (episodes os') = fst (episodes os) ++ map (fun Pt => (ops_of (fst Pt) (tr_steps (snd Pt)), end_of (fst Pt) (snd Pt))) (combine problems ts) /\
    t1 = match ns with [] => t0 | _ => Some (summarized alg fold (r_rows world call (nm_rec M'))) end /\ a1 = a0 + length (filter tr_goal ts).
Proof.
  intros AS. induction ns as [|x ns IH]; intros M os learned a0 t0 M' a1 t1 R; cbn [pil_loop].
  - intros X. injection X as <- <- <-. exists [], [], os. split; [constructor|]. split; [exact I|]. cbn [map concat combine]. rewrite !app_nil_r. split; [exact R|]. split; [reflexivity|]. split; [reflexivity|cbn; lia].
  - destruct (read_problem d x) as [P|] eqn:RP; [|discriminate]. cbn [bind]. apply read_holds in RP. assert (ND : NoDup (en_actions (pr_env P))) by exact (AS _ _ _ (proj2 RP)).
    destruct (episode k P M) as [(M1 & goal)|] eqn:EP; [|discriminate]. cbn [bind]. destruct (episode_ready os learned k P M M1 goal ND R EP) as (t & os1 & EG & TR & R1 & E1). intros X.
    destruct (IH M1 os1 (learned ++ tr_lesson t) _ _ _ _ _ R1 X) as (problems & ts & os' & F & AT & R' & E' & T' & A'). exists (P :: problems), (t :: ts), os'. split; [constructor; assumption|]. split; [split; assumption|].
    cbn [map concat combine fst snd]. split; [rewrite app_assoc; exact R'|]. split; [rewrite E', E1, <- app_assoc; reflexivity|]. split.
    + destruct ns; [|exact T']. subst t1. cbn [pil_loop] in X. injection X as <- _. reflexivity.
    + rewrite A'. cbn [filter]. rewrite EG. destruct goal; cbn [length]; lia.
Qed.
Lemma init_ready : ready [] [] (init_noam le dom degree).
Proof.
  constructor; [exists (new_recorder world call names); split; [reflexivity|apply new_inv]|reflexivity|reflexivity|apply init_tables].
Qed.

(** ** The fold *)
Theorem fold_spec k prefix fold d out L out' t : NoDup (dict_keys d) -> action_sets_in d -> learning (exploring k) prefix fold degree d out = Ok (L, out', t) ->
  exists problems ts tbl, problems_of d prefix problems /\ all_tried k [] problems ts /\ learned_by (concat (map tr_lesson ts)) = Ok L /\
    fold_table names (algorithm_name (exploring k)) fold (combine problems (map as_visit ts)) tbl /\ only_file out (statistics_file (algorithm_name (exploring k)) fold) tbl out' /\
    t = match problems with [] => None | _ => Some tbl end.
Proof.
  intros ND AS. unfold learn_model_online. destruct (loop _ _ _ _ _ _ _ _) as [((M & a) & t1)|] eqn:X; [|discriminate]. cbn [bind]. intros Y. injection Y as <- <- <-.
  destruct (loop_ready _ _ _ _ AS _ _ [] [] _ _ _ _ _ init_ready X) as (problems & ts & os & F & AT & R & E & T & _). exists problems, ts, (summarized (algorithm_name (exploring k)) fold (r_rows world call (nm_rec M))).
  split; [exists (problem_names d prefix); split; [apply names_files; exact ND|exact F]|]. split; [exact AT|]. split; [exact (rd_learn _ _ _ R)|]. split; [|split; [apply export_only|rewrite T; inversion F; reflexivity]].
  unfold fold_table. apply summarized_table. destruct (rd_rec _ _ _ R) as (r0 & ER & V). rewrite ER. cbn [clear_trajectory r_rows]. pose proof (EpisodeProofs.i_rows _ _ _ _ _ _ V) as RO. rewrite E in RO. change (fst (EpisodeSpec.episodes world call [])) with (@nil (list (op world call) * ending)) in RO. cbn [app] in RO.
  clear - RO. revert ts RO. generalize 1. generalize (r_rows world call r0). induction problems as [|P problems IH]; intros rows k [|t ts] N; destruct rows as [|r rows]; cbn [combine map EpisodeSpec.numbered] in *; try contradiction; auto. destruct N as (N1 & N2). split; [apply trial_row; exact N1|apply IH; exact N2].
Qed.
Theorem semi_spec prefix fold d out L out' t : 0 < max_file -> NoDup (dict_keys d) -> action_sets_in d -> learning semi_online prefix fold degree d out = Ok (L, out', t) ->
  exists problems vs tbl, problems_of d prefix problems /\ all_visited 0 [] [] [] problems vs /\ learned_by (fst (lessons [] vs)) = Ok L /\
    fold_table names "semi_online" fold (combine problems vs) tbl /\ only_file out (statistics_file "semi_online" fold) tbl out' /\ t = None.
Proof.
  intros FILE ND AS. unfold learn_model_online. destruct (map_res (read_problem d) (problem_names d prefix)) as [problems|] eqn:RP; [|discriminate]. cbn [bind]. apply reads_all in RP.
  destruct (semi_run _ _ _ _ _ _ _ _ _ _ _ _ _ _ _ _ _ _ _ _ _) as [M|] eqn:X; [|discriminate]. cbn [bind]. intros Y. injection Y as <- <- <-.
  destruct (run_spec le unit fine fit hull schmidt rank svm limit flatten dom rd min_episodes min_executions max_steps max_failed max_file (map pr_name problems) FAIR FILE PLAIN degree solvers problems M (holds_sets _ _ _ AS RP) X) as (vs & AV & TR & _ & _ & RO).
  exists problems, vs, (summarized "semi_online" fold (r_rows world call (se_rec M))). split; [exists (problem_names d prefix); split; [apply names_files; exact ND|exact RP]|]. split; [exact AV|]. split; [exact TR|]. split; [apply summarized_table; exact RO|]. split; [apply export_only|reflexivity].
Qed.

(** ** The evaluated domains *)
Theorem main_spec k prefix fold d out out' t domains : main (exploring k) prefix fold degree d out = Ok (out', t, domains) ->
  exists L, learning (exploring k) prefix fold degree d out = Ok (L, out', t) /\
    match domains with
    | Some (safe, optimistic) => (k = noam_learner \/ k = goal_oriented) /\ construct_safe_action_model unit fine fit rank flatten dom L = Ok safe /\ construct_optimistic_action_model unit fine fit rank svm limit flatten dom L = Ok optimistic
    | None => k <> noam_learner /\ k <> goal_oriented
    end.
Proof.
  unfold pil_main. destruct (learning (exploring k) prefix fold degree d out) as [((L & o) & t1)|]; [|discriminate]. cbn [bind]. intros X. exists L. destruct (is_evaluated (exploring k)) eqn:EV.
  - unfold construct_domains in X. destruct (construct_safe_action_model unit fine fit rank flatten dom L) as [s|]; [|discriminate]. destruct (construct_optimistic_action_model unit fine fit rank svm limit flatten dom L) as [o'|]; [|discriminate]. cbn [bind] in X. injection X as <- <- <-. split; [reflexivity|]. split; [|auto]. destruct k; try discriminate EV; auto.
  - injection X as <- <- <-. split; [reflexivity|]. destruct k; try discriminate EV; split; discriminate.
Qed.
Lemma main_semi prefix fold d out out' t domains : main semi_online prefix fold degree d out = Ok (out', t, domains) -> domains = None /\ exists L, learning semi_online prefix fold degree d out = Ok (L, out', t).
Proof. unfold pil_main. destruct (learning semi_online prefix fold degree d out) as [((L & o) & t1)|]; [|discriminate]. cbn [bind is_evaluated]. intros [= <- <- <-]. split; [reflexivity|exists L; reflexivity]. Qed.

(** ** Success *)
Definition trial_end (t : trial) : ending := OcolFinal.ending_of (as_visit t).
Lemma trial_success k learned P t : tried k learned P t -> success (trial_end t) = tr_goal t.
Proof.
  intros V. unfold success, trial_end, OcolFinal.ending_of. cbn [e_goal e_safe e_optimistic as_visit vi_goal vi_safe_status vi_optimistic_status]. destruct (tr_goal t) eqn:G; [reflexivity|]. cbn [orb]. apply not_true_iff_false. intros X. apply orb_true_iff in X.
  unfold PilSpec.tried in V. destruct (tries_safe k).
  - destruct V as (m & w & _ & _ & [(_ & _ & _ & _ & S & _)|(NS & _ & V)]); [congruence|]. destruct (tries_optimistic_next k).
    + destruct V as (m' & w' & _ & _ & [(_ & _ & S & _)|(NO & _)]); [congruence|]. destruct X as [X|X]; apply name_ok in X; congruence.
    + destruct V as (_ & E & _). destruct X as [X|X]; apply name_ok in X; congruence.
  - destruct V as (_ & m & w & _ & _ & [(_ & _ & _ & S & _)|(NO & E & _)]); [congruence|]. destruct X as [X|X]; apply name_ok in X; congruence.
Qed.
Lemma trials_success k : forall problems ts learned, all_tried k learned problems ts -> length ts = length problems /\ Forall (fun e => success e = e_goal e) (map trial_end ts).
Proof.
  induction problems as [|P problems IH]; intros [|t ts] learned H; try (exfalso; exact H); [split; [reflexivity|constructor]|]. destruct H as (V & H). destruct (IH _ _ H) as (L & F). split; [cbn; congruence|]. constructor; [exact (trial_success _ _ _ _ V)|exact F].
Qed.
Lemma table_holds names0 alg fold (f : visit -> ending) : (forall v, e_goal (f v) = vi_goal v /\ e_safe (f v) = status_name (vi_safe_status v) /\ e_optimistic (f v) = status_name (vi_optimistic_status v)) ->
  forall problems vs n tbl, length vs = length problems -> EpisodeSpec.numbered (fun n Pv r => reported names0 n Pv r /\ dict_get r "algorithm_type" = Some (CText alg) /\ dict_get r "fold_number" = Some (CNat fold)) n (combine problems vs) tbl -> EpisodeSpec.numbered (episode_row alg fold) n (map f vs) tbl.
Proof.
  intros H. induction problems as [|P problems IH]; intros [|v vs] n [|r tbl] LE N; try discriminate LE; cbn [combine EpisodeSpec.numbered map] in *; try contradiction; [exact I|]. destruct N as ((R & A & F) & N). split; [|apply IH; [cbn in LE; congruence|exact N]].
  destruct (H v) as (H1 & H2 & H3). unfold reported in R. unfold episode_row. rewrite H1, H2, H3. intuition.
Qed.
Lemma explored_only d alg runs fold es tbl d' : explored d alg runs -> ~ In fold (map fst runs) -> holds_run alg fold es tbl -> NoDup (dict_keys d') -> only_file d (statistics_file alg fold) tbl d' -> explored d' alg (runs ++ [(fold, es)]).
Proof.
  intros (ND & NR & O & A) NI H ND' (G & S). split; [exact ND'|]. split; [rewrite map_app; cbn; apply (Permutation_NoDup (Permutation_cons_append (map fst runs) fold)); constructor; assumption|]. split.
  - intros x I B. destruct (string_dec x (statistics_file alg fold)) as [->|N].
    + exists (fold, es). split; [apply in_app_iff; right; left; reflexivity|reflexivity].
    + assert (I' : In x (dict_keys d)). { destruct (dict_get d x) as [t|] eqn:E; [apply dict_get_key in E; exact E|]. exfalso. rewrite <- (S x N) in E. apply dict_get_None in E. contradiction. }
      destruct (O x I' B) as (run & IR & ->). exists run. split; [apply in_app_iff; left; exact IR|reflexivity].
  - intros run I. apply in_app_iff in I. destruct I as [I|[<-|[]]].
    + destruct (A run I) as (B & t & Gt & HR). split; [exact B|]. exists t. split; [|exact HR]. rewrite S; [exact Gt|]. intros E. apply statistics_inj in E. apply NI. rewrite <- E. apply in_map. exact I.
    + cbn [fst snd]. split; [apply statistics_own|]. exists tbl. split; assumption.
Qed.
Theorem fold_collected a prefix fold d out L out' t runs : 0 < max_file -> NoDup (dict_keys d) -> action_sets_in d -> learning a prefix fold degree d out = Ok (L, out', t) ->
  explored out (algorithm_name a) runs -> ~ In fold (map fst runs) -> exists es, length es = length (problem_names d prefix) /\ Forall (fun e => success e = e_goal e) es /\ explored out' (algorithm_name a) (runs ++ [(fold, es)]).
Proof.
  intros FILE ND AS X EX NI.
  assert (NDO : NoDup (dict_keys out')).
  { unfold learn_model_online in X. destruct a as [|k].
    - destruct (map_res (read_problem d) (problem_names d prefix)) as [problems|]; [|discriminate]. cbn [bind] in X. destruct (semi_run _ _ _ _ _ _ _ _ _ _ _ _ _ _ _ _ _ _ _ _ _) as [M|]; [|discriminate]. injection X as _ <- _. unfold export_statistics. apply set_nodup. exact (proj1 EX).
    - destruct (loop _ _ _ _ _ _ _ _) as [((M & a) & t1)|]; [|discriminate]. injection X as _ <- _. unfold export_statistics. apply set_nodup. exact (proj1 EX). }
  destruct a as [|k].
  - destruct (semi_spec _ _ _ _ _ _ _ FILE ND AS X) as (problems & vs & tbl & (ns & NF & F) & AV & _ & FT & OF & _). destruct (all_ok_goal _ _ _ _ _ _ _ _ _ _ _ _ _ _ _ AV) as (LE & SU). exists (map OcolFinal.ending_of vs).
    split; [rewrite map_length, LE, <- (names_unique _ _ _ ND NF); symmetry; exact (Forall2_length F)|]. split; [exact SU|]. eapply explored_only; [exact EX|exact NI| |exact NDO|exact OF]. apply (table_holds names _ _ OcolFinal.ending_of (fun v => conj eq_refl (conj eq_refl eq_refl)) problems vs 1 tbl LE FT).
  - destruct (fold_spec _ _ _ _ _ _ _ _ ND AS X) as (problems & ts & tbl & (ns & NF & F) & AT & _ & FT & OF & _). destruct (trials_success _ _ _ _ AT) as (LE & SU). exists (map trial_end ts).
    split; [rewrite map_length, LE, <- (names_unique _ _ _ ND NF); symmetry; exact (Forall2_length F)|]. split; [exact SU|]. eapply explored_only; [exact EX|exact NI| |exact NDO|exact OF]. unfold trial_end. rewrite <- (map_map as_visit OcolFinal.ending_of).
    apply (table_holds names _ _ OcolFinal.ending_of (fun v => conj eq_refl (conj eq_refl eq_refl)) problems (map as_visit ts) 1 tbl); [rewrite map_length; exact LE|exact FT].
Qed.
(** Unless every problem file can be read nothing is written. *)
Theorem unreadable a prefix fold d out x e : 0 < max_file -> NoDup (dict_keys d) -> action_sets_in d -> dict_get d x = Some (Err e) -> is_problem prefix x -> exists e', learning a prefix fold degree d out = Err e'.
Proof.
  intros FILE ND AS G IP. destruct (learning a prefix fold degree d out) as [((L & o) & t)|e'] eqn:X; [|exists e'; reflexivity]. exfalso.
  assert (H : exists problems, problems_of d prefix problems) by (destruct a as [|k]; [destruct (semi_spec _ _ _ _ _ _ _ FILE ND AS X) as (problems & _ & _ & H & _)|destruct (fold_spec _ _ _ _ _ _ _ _ ND AS X) as (problems & _ & _ & H & _)]; exists problems; exact H).
  destruct H as (problems & ns & (_ & I) & F). assert (IX : In x ns) by (apply I; split; [apply dict_get_key in G; exact G|exact IP]).
  assert (G2 : exists P, file_holds d x P) by (clear - F IX; induction F as [|y P ns problems H _ IH]; [destruct IX|]; destruct IX as [<-|IX]; [exists P; exact H|auto]). destruct G2 as (P & _ & G2). congruence.
Qed.
End Final.

(** ** What was learned happened *)
Lemma run_unique E w plan t w1 b : plan_run E w plan t w1 b -> forall t' w2 b', plan_run E w plan t' w2 b' -> t' = t /\ w2 = w1 /\ b' = b.
Proof.
  assert (D : forall w c w1 w2, real_outcome E w c w1 true -> real_outcome E w c w2 true -> w1 = w2) by (intros ? ? ? ? (_ & A) (_ & B); cbn in A, B; congruence).
  assert (X : forall w c w1 w2, real_outcome E w c w1 true -> real_outcome E w c w2 false -> False).
  { intros v c v1 v2 (N1 & A) (N2 & B). cbn in A, B. destruct B as (B1 & B2). rewrite A in *. firstorder congruence. }
  induction 1 as [w|w c w1 plan t w'' b O R IH|w c plan O]; intros t' w2 b' H.
  - inversion H; subst; auto.
  - inversion H as [|? ? wx ? tx ? ? OX RX|? ? ? OX]; subst; [|exfalso; eauto]. assert (w1 = wx) by eauto. subst wx. destruct (IH _ _ _ RX) as (-> & -> & ->). auto.
  - inversion H as [|? ? wx ? tx ? ? OX RX|? ? ? OX]; subst; [exfalso; eauto|auto].
Qed.
Lemma first_unique model P : forall svs sv rest svs' sv' rest', svs ++ sv :: rest = svs' ++ sv' :: rest' -> Forall (refused model P) svs -> Forall (refused model P) svs' -> ~ refused model P sv -> ~ refused model P sv' -> sv = sv'.
Proof.
  induction svs as [|s svs IH]; intros sv rest [|s' svs'] sv' rest' E F F' N N'; cbn in E; injection E as E1 E2; subst; auto.
  - inversion F'; subst. contradiction.
  - inversion F; subst. contradiction.
  - inversion F; inversion F'; subst. eapply IH; eassumption.
Qed.
Section Plans.
Variable le : text -> text -> bool.
Variables unit fine : positive.
Variable fit : list (list Q) -> list Q -> list Q * Q * bool.
Variable hull : list (list Q) -> option (list (list Q) * list Q).
Variable schmidt : list (list Q) -> list (list Q) -> list (list Q).
Variable rank : list (list Q) -> nat.
Variable svm : list (list Q * bool) -> list Q * Q.
Variable limit : nat.
Variable fl : bool.
Variable dom : domain.
Variables max_steps max_failed : nat.
Variable solvers : list solver.
Variable degree : nat.
Notation learned_by := (numeric_train le unit fit hull schmidt dom degree).
Notation safe_after := (SemiSpec.safe_after le unit fine fit hull schmidt rank fl dom degree).
Notation optimistic_after := (SemiSpec.optimistic_after le unit fine fit hull schmidt rank svm limit fl dom degree).
Notation tried := (tried safe_after optimistic_after solvers max_steps max_failed).
Notation all_tried := (all_tried safe_after optimistic_after solvers max_steps max_failed).
Lemma trial_happened k learned P t : tried k learned P t -> Forall (Forall (component_happened (pr_env P))) (tr_lesson t).
Proof.
  assert (WH : forall w, wanders max_steps max_failed P w t -> Forall (Forall (component_happened (pr_env P))) [map as_component (learned_steps (tr_rounds t))]).
  { intros w (_ & rs & ws & final & E & W & _ & _ & G). constructor; [|constructor]. rewrite E. unfold learned_steps. rewrite flat_map_app, map_app. apply Forall_app. split; [exact (walk_happened _ _ _ _ W)|].
    assert (FC : final = [] \/ exists r, final = [r] /\ dead_end (pr_env P) (last_state w ws) r) by (destruct (tr_goal t); [left; apply G|destruct G as (_ & [(G & _)|G]); auto]).
    destruct FC as [->|(r & -> & (F & _))]; [constructor|]. cbn [flat_map]. rewrite app_nil_r. eapply round_happened. exact F. }
  assert (SO : forall w, wanders max_steps max_failed P w t -> tr_solved t = false) by (intros w (H & _); exact H).
  unfold PilSpec.tried, tr_lesson. destruct (tries_safe k).
  - intros (m & w & _ & A & H). apply Forall_app. split; [exact (attempt_happened _ _ _ _ _ _ A)|]. destruct H as [(_ & -> & _ & (_ & _ & ->))|(_ & _ & H)]; [constructor|]. destruct (tries_optimistic_next k).
    + destruct H as (m' & w' & _ & A' & H). apply Forall_app. split; [exact (attempt_happened _ _ _ _ _ _ A')|]. destruct H as [(_ & (_ & _ & ->))|(_ & H)]; [constructor|]. rewrite (SO _ H). exact (WH _ H).
    + destruct H as (-> & _ & H). rewrite (SO _ H). exact (WH _ H).
  - intros (-> & m & w & _ & A & H). cbn [trace_list app]. apply Forall_app. split; [exact (attempt_happened _ _ _ _ _ _ A)|]. destruct H as [(_ & _ & (_ & _ & ->))|(_ & _ & H)]; [constructor|]. rewrite (SO _ H). exact (WH _ H).
Qed.
Lemma trials_real real k : forall problems ts learned, real_problems dom real problems -> all_tried k learned problems ts ->
  forall t cp, In t (concat (map tr_lesson ts)) -> In cp t -> cp_ok (nc_comp cp) = true -> real_success dom real cp.
Proof.
  induction problems as [|P problems IH]; intros [|t ts] learned RP AT; try (exfalso; exact AT); [intros t cp []|]. destruct AT as (V & AT). cbn [map concat]. intros l cp I. apply in_app_iff in I. destruct I as [I|I].
  - apply trial_happened in V. rewrite Forall_forall in V. specialize (V l I). rewrite Forall_forall in V. intros Ic. apply (happened_real dom real (pr_env P)); [apply RP; left; reflexivity|apply V; exact Ic].
  - revert l cp I. apply (IH ts (learned ++ tr_lesson t)); [intros Q IQ; apply RP; right; exact IQ|exact AT].
Qed.
Lemma of_real real traces : (forall t cp, In t traces -> In cp t -> cp_ok (nc_comp cp) = true -> real_success dom real cp) -> forall n cp, In cp (of_action n traces) -> real_success dom real cp.
Proof. intros H n cp I. unfold of_action in I. apply filter_In in I. destruct I as (I & B). rewrite !andb_true_iff in B. destruct B as ((OK & _) & _). apply in_concat in I. destruct I as (t & T & I). exact (H t cp T I OK). Qed.

(** ** Plans of the safe domain *)
Variable real : string -> option (action * numeric_part).
Hypothesis EL : exact_libraries unit fit hull schmidt.
Hypothesis RN : real_numeric_actions dom degree real.
Hypothesis FINE : exists j, fine = (unit * j)%positive.
Hypothesis REG : exact_regression unit fit.
Lemma attempt_solves learned model P o st w before sv after plan : (forall t cp, In t learned -> In cp t -> cp_ok (nc_comp cp) = true -> real_success dom real cp) ->
  real_environment dom real (pr_env P) -> online_input unit fit le dom degree learned -> guarded dom learned -> safe_after learned model -> attempted solvers model P o st w ->
  solvers = before ++ sv :: after -> Forall (refused model P) before -> sv model P = (st_ok, plan) -> plan_solves dom model (pr_env P) (pr_init P) plan ->
  st = st_ok /\ exists t, o = Some t /\ plan_run (pr_env P) (pr_init P) plan t w true /\ length t = length plan /\ en_goal (pr_env P) w = Ok true.
Proof.
  intros RS RE OL GU (L & TR & CM) A ES FB SV PS.
  assert (NR : ~ refused model P sv) by (intros X; apply X; rewrite SV; reflexivity).
  destruct (plan_executed le unit fine fit hull schmidt rank dom degree learned L fl model EL OL TR CM real RN (of_real real learned RS) FINE REG GU (pr_env P) RE plan (pr_init P) PS) as (t & w' & X & LT & G). apply executed_plan in X.
  destruct o as [t0|]; cbn [attempted] in A.
  - destruct A as (svs & sv' & svs' & plan' & b & E' & F' & SV' & R & H). assert (NR' : ~ refused model P sv') by (intros Z; apply Z; rewrite SV'; reflexivity).
    rewrite ES in E'. assert (sv = sv') by exact (first_unique model P _ _ _ _ _ _ E' FB F' NR NR'). subst sv'. rewrite SV in SV'. injection SV' as <-. destruct (run_unique _ _ _ _ _ _ X _ _ _ R) as (-> & -> & ->).
    destruct H as [(-> & _)|(_ & H)]; [|congruence]. split; [reflexivity|]. exists t. auto.
  - destruct A as (F & _). exfalso. rewrite ES in F. apply Forall_app in F. destruct F as (_ & F). inversion F; subst. contradiction.
Qed.
Lemma safe_unique learned m m' : safe_after learned m -> safe_after learned m' -> m = m'.
Proof. intros (L & T & C) (L' & T' & C'). congruence. Qed.
Lemma trial_at k : forall before_ps P after_ps before_ts t after_ts learned, length before_ps = length before_ts -> all_tried k learned (before_ps ++ P :: after_ps) (before_ts ++ t :: after_ts) ->
  all_tried k learned before_ps before_ts /\ tried k (learned ++ concat (map tr_lesson before_ts)) P t.
Proof.
  induction before_ps as [|Q bp IH]; intros P ap [|u bt] t at' learned LE H; try discriminate LE; cbn [app] in H.
  - destruct H as (H & _). cbn. rewrite app_nil_r. split; [exact I|exact H].
  - destruct H as (HU & H). injection LE as LE. destruct (IH _ _ _ _ _ _ LE H) as (H1 & H2). split; [split; assumption|]. cbn [map concat]. rewrite app_assoc. exact H2.
Qed.
Lemma trial_solved k bp P ap bt t at' model before sv after plan : length bp = length bt -> all_tried k [] (bp ++ P :: ap) (bt ++ t :: at') -> real_problems dom real (bp ++ P :: ap) -> tries_safe k = true ->
  let learned := concat (map tr_lesson bt) in online_input unit fit le dom degree learned -> guarded dom learned -> safe_after learned model ->
  solvers = before ++ sv :: after -> Forall (refused model P) before -> sv model P = (st_ok, plan) -> plan_solves dom model (pr_env P) (pr_init P) plan ->
  by_plan t /\ tr_safe_status t = st_ok /\ tr_optimistic t = None /\ exists trace w, tr_safe t = Some trace /\ plan_run (pr_env P) (pr_init P) plan trace w true /\ length trace = length plan /\ en_goal (pr_env P) w = Ok true.
Proof.
  intros LE AT RP TS learned OL GU SA ES FB SV PS. destruct (trial_at _ _ _ _ _ _ _ _ LE AT) as (AB & TR). cbn [app] in TR. fold learned in TR. unfold PilSpec.tried in TR. rewrite TS in TR. destruct TR as (m & w & SA' & A & H).
  assert (m = model) by (eapply safe_unique; eassumption). subst m.
  assert (RPB : real_problems dom real bp) by (intros Q IQ; apply RP, in_app_iff; left; exact IQ).
  destruct (attempt_solves learned model P _ _ _ before sv after plan (trials_real real k bp bt [] RPB AB) (RP P ltac:(apply in_app_iff; right; left; reflexivity)) OL GU SA' A ES FB SV PS) as (S & t0 & T0 & R & LT & G).
  destruct H as [(_ & N & _ & BP)|(NS & _)]; [|contradiction]. split; [exact BP|]. split; [exact S|]. split; [exact N|]. exists t0, w. auto.
Qed.

(** The same for semi-online learning *)
Section Semi.
Notation names := (dict_keys (d_actions dom)).
Variables min_episodes min_executions max_file : nat.
Notation visited := (visited safe_after optimistic_after solvers names min_episodes min_executions max_steps max_failed max_file).
Notation all_visited := (all_visited safe_after optimistic_after solvers names min_episodes min_executions max_steps max_failed max_file).
Lemma visit_at : forall before_ps P after_ps before_vs v after_vs index before learned waiting, length before_ps = length before_vs -> all_visited index before learned waiting (before_ps ++ P :: after_ps) (before_vs ++ v :: after_vs) ->
  all_visited index before learned waiting before_ps before_vs /\ exists before', visited (index + length before_vs) before' (learned ++ fst (lessons waiting before_vs)) (snd (lessons waiting before_vs)) P v.
Proof.
  induction before_ps as [|Q bp IH]; intros P ap [|u bt] v at' index before learned waiting LE H; try discriminate LE; cbn [app] in H.
  - destruct H as (H & _). cbn [lessons fst snd length]. rewrite app_nil_r, Nat.add_0_r. split; [exact I|exists before; exact H].
  - destruct H as (HU & H). injection LE as LE. destruct (IH _ _ _ _ _ _ _ _ _ LE H) as (H1 & b' & H2). split; [split; assumption|]. exists b'. rewrite lessons_cons. cbn [fst snd length]. rewrite app_assoc. replace (index + S (length bt)) with (index + 1 + length bt) by lia. exact H2.
Qed.
Lemma waiting_real : forall problems vs index before learned waiting, real_problems dom real problems -> all_visited index before learned waiting problems vs ->
  (forall t cp, In t waiting -> In cp t -> cp_ok (nc_comp cp) = true -> real_success dom real cp) ->
  forall t cp, In t (snd (lessons waiting vs)) -> In cp t -> cp_ok (nc_comp cp) = true -> real_success dom real cp.
Proof.
  induction problems as [|P problems IH]; intros [|v vs] index before learned waiting RP AV W; try (exfalso; exact AV); [exact W|]. destruct AV as (VI & AV). destruct (visit_happened _ _ _ _ _ _ _ _ _ _ _ _ _ _ _ _ _ _ _ _ _ _ _ _ VI) as (_ & _ & H3).
  rewrite lessons_cons. cbn [snd]. apply (IH vs _ _ _ _ (fun Q IQ => RP Q (or_intror IQ)) AV).
  assert (OK : forall t cp, In t (map as_trace (vi_parts v)) -> In cp t -> cp_ok (nc_comp cp) = true -> real_success dom real cp).
  { intros t cp It Ic. rewrite Forall_forall in H3. specialize (H3 t It). rewrite Forall_forall in H3. apply (happened_real dom real (pr_env P)); [apply RP; left; reflexivity|apply H3; exact Ic]. }
  unfold lesson. destruct (vi_planned v); cbn [snd]; [exact OK|]. intros t cp It. apply in_app_iff in It. destruct It as [It|It]; [exact (W t cp It)|exact (OK t cp It)].
Qed.
Lemma visit_solved bp P ap bt v at' model before sv after plan : length bp = length bt -> all_visited 0 [] [] [] (bp ++ P :: ap) (bt ++ v :: at') -> real_problems dom real (bp ++ P :: ap) -> vi_planned v = true ->
  let learned := fst (lessons [] bt) ++ snd (lessons [] bt) in online_input unit fit le dom degree learned -> guarded dom learned -> safe_after learned model ->
  solvers = before ++ sv :: after -> Forall (refused model P) before -> sv model P = (st_ok, plan) -> plan_solves dom model (pr_env P) (pr_init P) plan ->
  solved v /\ vi_safe_status v = st_ok /\ vi_optimistic v = None /\ exists trace w, vi_safe v = Some trace /\ plan_run (pr_env P) (pr_init P) plan trace w true /\ length trace = length plan /\ en_goal (pr_env P) w = Ok true.
Proof.
  intros LE AT RP TS learned OL GU SA ES FB SV PS. destruct (visit_at _ _ _ _ _ _ _ _ _ _ LE AT) as (AB & b' & (_ & _ & TR)). rewrite TS in TR. cbn [app] in TR. destruct TR as (m & w & SA' & A & H). fold learned in SA'.
  assert (m = model) by (eapply safe_unique; eassumption). subst m.
  assert (RPB : real_problems dom real bp) by (intros Q IQ; apply RP, in_app_iff; left; exact IQ).
  assert (RS : forall t cp, In t learned -> In cp t -> cp_ok (nc_comp cp) = true -> real_success dom real cp).
  { assert (W0 : forall t cp, In t [] -> In cp t -> cp_ok (nc_comp cp) = true -> real_success dom real cp) by (intros t cp []). intros t cp It. apply in_app_iff in It. destruct It as [It|It]; [revert t cp It; eapply lessons_happened; eassumption|revert t cp It; eapply waiting_real; eassumption]. }
  destruct (attempt_solves learned model P _ _ _ before sv after plan RS (RP P ltac:(apply in_app_iff; right; left; reflexivity)) OL GU SA' A ES FB SV PS) as (S & t0 & T0 & R & LT & G).
  destruct H as [(_ & N & _ & BP)|(NS & _)]; [|contradiction]. split; [exact BP|]. split; [exact S|]. split; [exact N|]. exists t0, w. auto.
Qed.
End Semi.
End Plans.

(** ** The order of the problems *)
Lemma numbered_inj prefix i j : numbered_file prefix i = numbered_file prefix j -> i = j.
Proof. unfold numbered_file. intros E. apply append_inj_l in E. apply append_inj_r in E. apply decimal_inj. exact E. Qed.
Theorem numbered_order d prefix n problems : NoDup (dict_keys d) -> (forall x, In x (dict_keys d) /\ is_problem prefix x <-> exists i, i < n /\ x = numbered_file prefix i) -> problems_of d prefix problems ->
  (map pr_name problems = map (fun i => (prefix ++ decimal i)%string) (seq 0 n) <-> n <= 10).
Proof.
  intros ND H (ns & NF & F). assert (EN : ns = map (fun x => (x ++ ".pddl")%string) (map pr_name problems)).
  { clear - F. induction F as [|x P ns problems (E & _) _ IH]; [reflexivity|]. cbn [map]. congruence. }
  destruct NF as (SO & I).
  assert (NDN : NoDup ns).
  { clear - SO. induction SO as [|x l SS IH F]; constructor; [|exact IH]. intros X. rewrite Forall_forall in F. specialize (F x X). rewrite ltb_irrefl in F. discriminate. }
  assert (PM : Permutation ns (map (numbered_file prefix) (seq 0 n))).
  { apply NoDup_Permutation; [exact NDN|apply FinFun.Injective_map_NoDup; [intros i j; apply numbered_inj|apply seq_NoDup]|]. intros x. rewrite I, H, in_map_iff. split; [intros (i & L & ->); exists i; split; [reflexivity|apply in_seq; lia]|intros (i & <- & L); exists i; split; [apply in_seq in L; lia|reflexivity]]. }
  apply Permutation_map_inv in PM. destruct PM as (idx & EI & PI).
  set (order := map (fun i => (i, tt)) idx).
  assert (FO : map fst order = idx) by (unfold order; rewrite map_map; apply map_id).
  assert (IO : in_name_order (numbered_file prefix) order order).
  { split; [reflexivity|]. unfold order. rewrite EI in SO. clear - SO. induction idx as [|i idx IH]; [constructor|]. cbn [map] in *. inversion SO as [|? ? S1 F1]; subst. constructor; [apply IH; exact S1|]. rewrite Forall_map in *. cbn. exact F1. }
  assert (NM : map pr_name problems = map (fun i => (prefix ++ decimal i)%string) idx).
  { rewrite EI in EN. clear - EN. revert EN. generalize (map pr_name problems). induction idx as [|i idx IH]; intros [|x l] E; cbn in E; try discriminate E; [reflexivity|]. injection E as E1 E2. cbn [map]. f_equal; [|apply IH; exact E2].
    unfold numbered_file in E1. rewrite <- app_assoc_s in E1. apply append_inj_r in E1. symmetry. exact E1. }
  rewrite NM. split.
  - intros E. destruct (le_lt_dec n 10) as [L|L]; [exact L|]. exfalso. apply (labels_wrong (numbered_file prefix) prefix (fun _ => ".pddl"%string) order order n (fun f => eq_refl) L IO). rewrite FO.
    clear - E. revert E. generalize (seq 0 n). induction idx as [|i idx IH]; intros [|j l] E; cbn in E; try discriminate E; [reflexivity|]. injection E as E1 E2. f_equal; [|apply IH; exact E2]. apply append_inj_l in E1. apply decimal_inj. exact E1.
  - intros L. assert (X : idx = seq 0 n); [|rewrite X; reflexivity]. rewrite <- FO. apply (labels_right (numbered_file prefix) prefix (fun _ => ".pddl"%string) order order n (fun f => eq_refl) L); [rewrite FO; apply Permutation_sym; exact PI|exact IO].
Qed.

(** ** The closed theorems *)
Theorem fold_safe le unit fine fit hull schmidt rank svm limit fl dom rd starvation min_episodes min_executions max_steps max_failed max_file solvers k prefix fold degree d out L out' t :
  fair rd -> Forall plain_name (dict_keys (d_actions dom)) -> NoDup (dict_keys d) -> action_sets_in d ->
  learn_model_online le unit fine fit hull schmidt rank svm limit fl dom rd starvation min_episodes min_executions max_steps max_failed max_file solvers (exploring k) prefix fold degree d out = Ok (L, out', t) ->
  exists problems ts, problems_of d prefix problems /\ all_tried (safe_after le unit fine fit hull schmidt rank fl dom degree) (optimistic_after le unit fine fit hull schmidt rank svm limit fl dom degree) solvers max_steps max_failed k [] problems ts /\
  numeric_train le unit fit hull schmidt dom degree (concat (map tr_lesson ts)) = Ok L /\
  forall real, real_dir dom real d -> exact_libraries unit fit hull schmidt -> real_numeric_actions dom degree real -> (exists j, fine = (unit * j)%positive) -> exact_regression unit fit ->
  (online_input unit fit le dom degree (concat (map tr_lesson ts)) ->
   forall model n a e r np, construct_safe_action_model unit fine fit rank fl dom L = Ok model -> dict_get (d_actions dom) n = Some a -> dict_get model n = Some e -> real n = Some (r, np) ->
   of_action n (concat (map tr_lesson ts)) <> [] -> safe_export dom r np e) /\
  (forall bp P ap bt tr at' model before sv after plan, problems = bp ++ P :: ap -> ts = bt ++ tr :: at' -> length bp = length bt -> tries_safe k = true ->
   let learned := concat (map tr_lesson bt) in online_input unit fit le dom degree learned -> guarded dom learned -> safe_after le unit fine fit hull schmidt rank fl dom degree learned model ->
   solvers = before ++ sv :: after -> Forall (refused model P) before -> sv model P = (st_ok, plan) -> plan_solves dom model (pr_env P) (pr_init P) plan ->
   by_plan tr /\ tr_safe_status tr = st_ok /\ tr_optimistic tr = None /\ exists trace w, tr_safe tr = Some trace /\ plan_run (pr_env P) (pr_init P) plan trace w true /\ length trace = length plan /\ en_goal (pr_env P) w = Ok true).
Proof.
  intros FAIR PLAIN ND AS X. destruct (fold_spec le unit fine fit hull schmidt rank svm limit fl dom rd starvation min_episodes min_executions max_steps max_failed max_file solvers FAIR PLAIN degree k prefix fold d out L out' t ND AS X) as (problems & ts & tbl & PO & AT & TR & _).
  exists problems, ts. split; [exact PO|]. split; [exact AT|]. split; [exact TR|]. intros real RD EL RN FINE REG. destruct PO as (ns & _ & F). pose proof (holds_real _ _ _ _ _ RD F) as RP. split.
  - intros OL model n a e r np CM GA GE ER NE.
    refine (model_safe le unit fine fit hull schmidt rank dom degree (concat (map tr_lesson ts)) L fl model EL OL TR CM n a e GA GE NE real r np RN _ ER FINE REG).
    intros cp. apply of_real. exact (trials_real le unit fine fit hull schmidt rank svm limit fl dom max_steps max_failed solvers degree real k problems ts [] RP AT).
  - intros bp P ap bt tr at' model before sv after plan -> -> LE TS. cbv zeta. exact (trial_solved le unit fine fit hull schmidt rank svm limit fl dom max_steps max_failed solvers degree real EL RN FINE REG k bp P ap bt tr at' model before sv after plan LE AT RP TS).
Qed.
Theorem semi_plans le unit fine fit hull schmidt rank svm limit fl dom rd min_episodes min_executions max_steps max_failed max_file problem_files solvers degree problems M :
  fair rd -> 0 < max_file -> Forall plain_name (dict_keys (d_actions dom)) -> action_sets problems ->
  semi_run le unit fine fit hull schmidt rank svm limit fl dom rd min_episodes min_executions max_steps max_failed max_file problem_files (Some solvers) degree problems = Ok M ->
  exists vs, all_visited (safe_after le unit fine fit hull schmidt rank fl dom degree) (optimistic_after le unit fine fit hull schmidt rank svm limit fl dom degree) solvers (dict_keys (d_actions dom)) min_episodes min_executions max_steps max_failed max_file 0 [] [] [] problems vs /\
    EpisodeSpec.numbered (reported (dict_keys (d_actions dom))) 1 (combine problems vs) (r_rows world call (se_rec M)) /\
  forall real, real_problems dom real problems -> exact_libraries unit fit hull schmidt -> real_numeric_actions dom degree real -> (exists j, fine = (unit * j)%positive) -> exact_regression unit fit ->
  forall bp P ap bv v av model before sv after plan, problems = bp ++ P :: ap -> vs = bv ++ v :: av -> length bp = length bv -> vi_planned v = true ->
  let learned := fst (lessons [] bv) ++ snd (lessons [] bv) in online_input unit fit le dom degree learned -> guarded dom learned -> safe_after le unit fine fit hull schmidt rank fl dom degree learned model ->
  solvers = before ++ sv :: after -> Forall (refused model P) before -> sv model P = (st_ok, plan) -> plan_solves dom model (pr_env P) (pr_init P) plan ->
  solved v /\ vi_safe_status v = st_ok /\ vi_optimistic v = None /\ exists trace w, vi_safe v = Some trace /\ plan_run (pr_env P) (pr_init P) plan trace w true /\ length trace = length plan /\ en_goal (pr_env P) w = Ok true.
Proof.
  intros FAIR FILE PLAIN AS X. destruct (run_spec le unit fine fit hull schmidt rank svm limit fl dom rd min_episodes min_executions max_steps max_failed max_file problem_files FAIR FILE PLAIN degree solvers problems M AS X) as (vs & AV & TR & _ & _ & RO).
  exists vs. split; [exact AV|]. split; [exact RO|]. intros real RP EL RN FINE REG bp P ap bv v av model before sv after plan -> -> LE TS. cbv zeta.
  exact (visit_solved le unit fine fit hull schmidt rank svm limit fl dom max_steps max_failed solvers degree real EL RN FINE REG min_episodes min_executions max_file bp P ap bv v av model before sv after plan LE AV RP TS).
Qed.
Theorem fold_collects le unit fine fit hull schmidt rank svm limit fl dom rd starvation min_episodes min_executions max_steps max_failed max_file solvers a prefix fold degree d out L out' t runs :
  fair rd -> Forall plain_name (dict_keys (d_actions dom)) -> 0 < max_file -> NoDup (dict_keys d) -> action_sets_in d ->
  learn_model_online le unit fine fit hull schmidt rank svm limit fl dom rd starvation min_episodes min_executions max_steps max_failed max_file solvers a prefix fold degree d out = Ok (L, out', t) ->
  explored out (algorithm_name a) runs -> ~ In fold (map fst runs) ->
  exists names es, problem_files d prefix names /\ length es = length names /\ Forall (fun e => success e = e_goal e) es /\ explored out' (algorithm_name a) (runs ++ [(fold, es)]).
Proof.
  intros FAIR PLAIN FILE ND AS X EX NI. destruct (fold_collected le unit fine fit hull schmidt rank svm limit fl dom rd starvation min_episodes min_executions max_steps max_failed max_file solvers FAIR PLAIN degree a prefix fold d out L out' t runs FILE ND AS X EX NI) as (es & LE & SU & EX').
  exists (problem_names d prefix), es. split; [apply names_files; exact ND|]. auto.
Qed.
Theorem fold_evaluated le unit fine fit hull schmidt rank svm limit fl dom rd starvation min_episodes min_executions max_steps max_failed max_file solvers a prefix fold degree d out out' t domains :
  fair rd -> Forall plain_name (dict_keys (d_actions dom)) -> NoDup (dict_keys d) -> action_sets_in d ->
  pil_main le unit fine fit hull schmidt rank svm limit fl dom rd starvation min_episodes min_executions max_steps max_failed max_file solvers a prefix fold degree d out = Ok (out', t, domains) ->
  match domains with
  | Some (safe, optimistic) => exists k problems ts, a = exploring k /\ (k = noam_learner \/ k = goal_oriented) /\ problems_of d prefix problems /\
      all_tried (safe_after le unit fine fit hull schmidt rank fl dom degree) (optimistic_after le unit fine fit hull schmidt rank svm limit fl dom degree) solvers max_steps max_failed k [] problems ts /\
      safe_after le unit fine fit hull schmidt rank fl dom degree (concat (map tr_lesson ts)) safe /\ optimistic_after le unit fine fit hull schmidt rank svm limit fl dom degree (concat (map tr_lesson ts)) optimistic
  | None => a <> exploring noam_learner /\ a <> exploring goal_oriented
  end.
Proof.
  intros FAIR PLAIN ND AS X. destruct a as [|k].
  - destruct (main_semi le unit fine fit hull schmidt rank svm limit fl dom rd starvation min_episodes min_executions max_steps max_failed max_file solvers degree prefix fold d out out' t domains X) as (-> & _). split; discriminate.
  - destruct (main_spec le unit fine fit hull schmidt rank svm limit fl dom rd starvation min_episodes min_executions max_steps max_failed max_file solvers degree k prefix fold d out out' t domains X) as (L & Y & H). destruct domains as [(safe & optimistic)|].
    + destruct H as (K & CS & CO). destruct (fold_spec le unit fine fit hull schmidt rank svm limit fl dom rd starvation min_episodes min_executions max_steps max_failed max_file solvers FAIR PLAIN degree k prefix fold d out L out' t ND AS Y) as (problems & ts & tbl & PO & AT & TR & _).
      exists k, problems, ts. split; [reflexivity|]. split; [exact K|]. split; [exact PO|]. split; [exact AT|]. split; exists L; auto.
    + destruct H as (N1 & N2). split; congruence.
Qed.

(** ** Every algorithm and fold has its own file *)
Lemma own_file a f b g : statistics_file (algorithm_name a) f = statistics_file (algorithm_name b) g -> a = b /\ f = g.
Proof.
  intros E. assert (S : a = b). { unfold statistics_file in E. destruct a as [|ka], b as [|kb]; try destruct ka; try destruct kb; cbn [algorithm_name String.append] in E; first [reflexivity|discriminate E]. }
  subst b. split; [reflexivity|]. apply statistics_inj in E. exact E.
Qed.
Theorem fold_keeps le unit fine fit hull schmidt rank svm limit fl dom rd starvation min_episodes min_executions max_steps max_failed max_file solvers a prefix fold degree d out L out' t b g :
  learn_model_online le unit fine fit hull schmidt rank svm limit fl dom rd starvation min_episodes min_executions max_steps max_failed max_file solvers a prefix fold degree d out = Ok (L, out', t) ->
  (b, g) <> (a, fold) -> dict_get out' (statistics_file (algorithm_name b) g) = dict_get out (statistics_file (algorithm_name b) g).
Proof.
  intros X NE. assert (O : exists tbl, only_file out (statistics_file (algorithm_name a) fold) tbl out').
  { unfold learn_model_online in X. destruct a as [|k].
    - destruct (map_res (read_problem d) (problem_names d prefix)) as [problems|]; [|discriminate]. cbn [bind] in X. destruct (semi_run _ _ _ _ _ _ _ _ _ _ _ _ _ _ _ _ _ _ _ _ _) as [M|]; [|discriminate]. injection X as _ <- _. eexists. apply export_only.
    - destruct (pil_loop _ _ _ _ _ _ _ _ _ _ _ _ _ _ _ _ _ _ _ _ _ _ _ _) as [((M & a) & t1)|]; [|discriminate]. injection X as _ <- _. eexists. apply export_only. }
  destruct O as (tbl & _ & O). apply O. intros E. apply own_file in E. destruct E as (-> & ->). apply NE. reflexivity.
Qed.
