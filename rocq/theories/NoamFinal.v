(** * Properties of online exploration and solving *)
From Verif Require Import NoamSpec NoamLearn NoamRun NoamSolve NoamPlan OnumTrain OnumClaims OnumFinal SamFinal UcProofs CondFinal VocabProofs Prelude PreludeProofs.
From Coq Require Import Lia.
Open Scope string_scope. Open Scope list_scope. Open Scope nat_scope.

Section Final.
Variable le : text -> text -> bool.
Variables unit fine : positive.
Variable fit : list (list Q) -> list Q -> list Q * Q * bool.
Variable hull : list (list Q) -> option (list (list Q) * list Q).
Variable schmidt : list (list Q) -> list (list Q) -> list (list Q).
Variable rank : list (list Q) -> nat.
Variable svm : list (list Q * bool) -> list Q * Q.
Variable limit : nat.
Variable fl : bool.
Variable dom : domain.
Variable rd : random.
Variables starvation max_failed max_file : nat.
Hypothesis FAIR : fair rd.
Variables (k : explorer) (solvers : option (list solver)) (degree : nat) (ops : list noam_op) (M : noam) (results : list (bool * nat)).
Hypothesis RUN : noam_run le unit fine fit hull schmidt rank svm limit fl dom rd starvation max_failed max_file k solvers degree ops = Ok (M, results).
Hypothesis SETS : ground_sets ops.

Lemma filter_length_le {A} (g : A -> bool) l : length (filter g l) <= length l.
Proof. clear. induction l as [|x l IH]; [apply le_n|]. cbn [filter]. destruct (g x); cbn; lia. Qed.
Lemma ops_fine b : (forall P total, In (op_solve P total) ops -> total <= b) -> Forall (op_fine b) ops.
Proof. intros H. apply Forall_forall. intros [t|P total] I; [exact Logic.I|]. split; [apply (SETS P total I)|apply (H P total I)]. Qed.
Lemma some_bound : exists b, forall P total, In (op_solve P total) ops -> total <= b.
Proof.
  clear. exists (list_max (map snd (attempts ops))). intros P total I. pose proof (proj1 (list_max_le (map snd (attempts ops)) (list_max (map snd (attempts ops)))) (Nat.le_refl _)) as F. rewrite Forall_forall in F. apply F.
  apply in_map_iff. exists (P, total). split; [reflexivity|]. unfold attempts. apply in_flat_map. exists (op_solve P total). split; [exact I|left; reflexivity].
Qed.
Lemma run_grew b : (forall P total, In (op_solve P total) ops -> total <= b) ->
  exists tss, Forall2 learned_from ops tss /\ grew unit fit hull schmidt dom b (init_noam le dom degree) M (concat tss) /\ results_fit ops results.
Proof.
  intros H. destruct (runs unit fine fit hull schmidt rank svm limit fl dom rd starvation max_failed max_file FAIR b k solvers ops (ops_fine b H) (init_noam le dom degree) [] M results (init_tables le dom degree) RUN) as (tss & more & F & G & -> & RF).
  exists tss. split; [exact F|split; [exact G|exact RF]].
Qed.
Lemma run_trained : exists tss, Forall2 learned_from ops tss /\ numeric_train le unit fit hull schmidt dom degree (concat tss) = Ok (nm_learners M) /\ results_fit ops results.
Proof. destruct some_bound as (b & H). destruct (run_grew b H) as (tss & F & G & RF). exists tss. split; [exact F|]. split; [exact (gr_learn _ _ _ _ _ _ _ _ _ G)|exact RF]. Qed.
Lemma run_tables : NoamLearn.tables dom (nm_failures M).
Proof. destruct some_bound as (b & H). destruct (run_grew b H) as (tss & F & G & RF). exact (gr_tables _ _ _ _ _ _ _ _ _ G). Qed.
Lemma run_keys : In "sum_successful_actions" (info_keys M) /\ In "sum_failed_actions" (info_keys M).
Proof.
  destruct some_bound as (b & H). destruct (run_grew b H) as (tss & F & G & RF). rewrite (gr_keys _ _ _ _ _ _ _ _ _ G). unfold info_keys. cbn [init_noam nm_rec new_recorder r_info]. unfold init_info.
  split; apply dict_of_keys; rewrite map_map, map_id; apply in_or_app; left; cbn; tauto.
Qed.

(** ** Exploring *)
Lemma explored k' E w total M' goal n : NoDup (en_actions E) -> explore unit fit hull schmidt dom rd starvation max_failed k' E M w total = Ok (M', (goal, n)) ->
  exists rs ws final, walk E w rs ws /\ r_traj world call (nm_rec M') = r_traj world call (nm_rec M) ++ all_steps (rs ++ final) /\
    fold_res (numeric_train_transition unit fit hull schmidt dom) (map as_component (learned_steps (rs ++ final))) (nm_learners M) = Ok (nm_learners M') /\
    length ws <= total /\ failures (all_steps (rs ++ final)) <= max_failed + 2 * length (en_actions E) /\
    if goal then final = [] /\ n = length ws /\ exists ws' w', ws = ws' ++ [w'] /\ en_goal E w' = Ok true /\ Forall (fun w => en_goal E w = Ok false) ws'
    else n = total /\ Forall (fun w => en_goal E w = Ok false) ws /\
      ((final = [] /\ (length ws = total \/ max_failed <= failures (all_steps rs) \/ forall c, In c (en_actions E) -> ~ NoDup (c_params c))) \/ exists r, final = [r] /\ dead_end E (last_state w ws) r).
Proof.
  intros ND X. destruct (explore_did unit fit hull schmidt dom rd starvation max_failed FAIR k' E M w total M' goal n ND run_tables X) as (rs & ws & final & W & D & LW & FL & RES). exists rs, ws, final.
  pose proof (di_fails _ _ _ _ _ _ _ _ _ _ _ D) as DF. cbn [with_fails nm_fails] in DF. assert (IC : injective_count E <= length (en_actions E)) by (unfold injective_count, injective_actions; apply filter_length_le).
  split; [exact W|]. split; [exact (di_traj _ _ _ _ _ _ _ _ _ _ _ D)|]. split; [exact (di_learn _ _ _ _ _ _ _ _ _ _ _ D)|]. split; [exact LW|]. split; [lia|].
  destruct goal; [exact RES|]. destruct RES as (-> & FG & RES). split; [reflexivity|]. split; [exact FG|]. destruct RES as [(-> & OR)|DE]; [left; split; [reflexivity|]|right; exact DE].
  destruct OR as [OR|[OR|OR]]; [left; exact OR|right; left|right; right].
  - rewrite app_nil_r in DF. lia.
  - intros c I N. assert (J : In c (injective_actions E)) by (apply injective_In; split; assumption). unfold injective_count in OR. destruct (injective_actions E); [destruct J|discriminate].
Qed.
Lemma fuel_enough k' E step w c ok w' frontier extra :
  retry unit fit hull schmidt dom rd starvation (length frontier + extra) k' E step M w (c, ok, w') frontier = retry unit fit hull schmidt dom rd starvation (length frontier) k' E step M w (c, ok, w') frontier.
Proof. apply retry_fuel; [lia|exact run_tables]. Qed.

(** ** Selecting *)
Lemma choice M0 w frontier M1 c rest : choose unit fit hull schmidt dom rd starvation M0 w frontier = Ok (M1, c, rest) ->
  (starving starvation M0 (c_name c) /\ Permutation (c :: rest) frontier) \/
  ((forall d, In d frontier -> ~ starving starvation M0 (c_name d)) /\ exists skipped, frontier = skipped ++ c :: rest /\
    Forall (fun d => is_informative unit fit hull schmidt dom M0 w d = Ok false) skipped /\ (is_informative unit fit hull schmidt dom M0 w c = Ok true \/ rest = [])).
Proof.
  assert (ST : forall n, is_starved starvation M0 n = true <-> starving starvation M0 n).
  { intros n. unfold is_starved, starving. destruct (dict_get (nm_last M0) n) as [j|]; [|split; [intros _ j [=]|reflexivity]]. rewrite Nat.leb_le. split; [intros H i [= <-]; exact H|intros H; apply H; reflexivity]. }
  unfold choose. destruct (starved_names starvation M0 frontier) as [|n ns] eqn:SN.
  - destruct frontier as [|d frontier]; [discriminate|]. destruct (pop_informative unit fit hull schmidt dom M0 w d frontier) as [(c' & rest')|] eqn:P; [|discriminate]. intros [= <- <- <-]. right. split.
    + intros x X S0. apply ST in S0. assert (I : In (c_name x) (starved_names starvation M0 (d :: frontier))) by (unfold starved_names; apply filter_In; split; [rewrite to_set_In; apply in_map; exact X|exact S0]). rewrite SN in I. destruct I.
    + destruct (pop_spec unit fit hull schmidt dom _ _ _ _ _ _ P) as (sk & EQ & F & OR). exists sk. split; [exact EQ|]. split; [exact F|]. destruct OR as [OR|(OR & _)]; [left|right]; exact OR.
  - destruct (nth_error _ _) as [d|] eqn:N; [|discriminate]. intros [= <- <- <-]. apply nth_error_In in N. apply filter_In in N. destruct N as (N & EN). apply String.eqb_eq in EN. left.
    assert (I : In n (starved_names starvation M0 frontier)) by (rewrite SN; left; reflexivity). apply starved_In in I. destruct I as (S0 & _). split; [apply ST; rewrite EN; exact S0|].
    clear -N. induction frontier as [|x frontier IH]; [destruct N|]. cbn [remove_first]. destruct (eq_dec x d) as [-> |NE]; [apply Permutation_refl|]. destruct N as [N|N]; [contradiction|]. eapply perm_trans; [apply perm_swap|]. apply perm_skip. apply IH. exact N.
Qed.
Lemma starvation_wins b w frontier : (forall P total, In (op_solve P total) ops -> total <= b) -> starvation + b <= nm_global M ->
  (forall n, starving starvation M n) /\
  forall L F w', match choose unit fit hull schmidt dom rd starvation M w frontier, choose unit fit hull schmidt dom rd starvation (with_learners M L F) w' frontier with
    | Ok (_, c, rest), Ok (_, c', rest') => c' = c /\ rest' = rest | Err _, Err _ => True | _, _ => False end.
Proof.
  intros TB GL. destruct (run_grew b TB) as (tss & _ & G & _). assert (B : bounded b M) by (apply (gr_bound _ _ _ _ _ _ _ _ _ G); intros n j; discriminate).
  assert (ALL : forall n, starving starvation M n) by (intros n j J; specialize (B n j J); lia). split; [exact ALL|]. intros L F w'. unfold choose. change (starved_names starvation (with_learners M L F) frontier) with (starved_names starvation M frontier).
  destruct (starved_names starvation M frontier) as [|n ns] eqn:SN.
  - destruct frontier as [|d frontier]; [exact I|]. exfalso. assert (J : In (c_name d) (starved_names starvation M (d :: frontier))).
    { unfold starved_names. apply filter_In. split; [rewrite to_set_In; left; reflexivity|]. unfold is_starved. destruct (dict_get (nm_last M) (c_name d)) as [j|] eqn:GJ; [|reflexivity]. apply Nat.leb_le. apply (ALL _ j GJ). }
    rewrite SN in J. destruct J.
  - change (rd_pick rd (nm_draws (with_learners M L F))) with (rd_pick rd (nm_draws M)). destruct (nth_error _ _); [split; reflexivity|exact I].
Qed.

(** ** Safety *)
Variable real : string -> option (action * numeric_part).
Hypothesis REAL : real_ops dom real ops.
Lemma happened_real E cp : real_environment dom real E -> component_happened E cp -> cp_ok (nc_comp cp) = true -> real_success dom real cp.
Proof.
  intros RE (_ & H) OK. rewrite OK in H. apply (re_success _ _ _ RE) in H. destruct cp as [[p c q o] x y]. cbn in *. subst o. exact H.
Qed.
Lemma outcome_component E w c w' ok : real_outcome E w c w' ok -> component_happened E (transition w c w' ok).
Proof. intros H. unfold component_happened, transition. cbn. destruct w, w'. exact H. Qed.
Lemma plan_happened E w plan t w' b : plan_run E w plan t w' b -> Forall (component_happened E) t.
Proof. induction 1; [constructor|constructor; [apply outcome_component; assumption|assumption]|constructor; [apply outcome_component; assumption|constructor]]. Qed.
Lemma round_happened E w r : Forall (attempt_at E w) (round_steps r) -> Forall (component_happened E) (map as_component (rn_tried r)).
Proof. unfold round_steps. intros F. apply Forall_app in F. destruct F as (F & _). induction F as [|s l (_ & H & _) _ IH]; [constructor|]. cbn [map]. constructor; [apply outcome_component; exact H|exact IH]. Qed.
Lemma walk_happened E w rs ws : walk E w rs ws -> Forall (component_happened E) (map as_component (learned_steps rs)).
Proof. induction 1 as [w|w r w' rs ws (F & _) _ IH]; [constructor|]. unfold learned_steps. cbn [flat_map]. rewrite map_app. apply Forall_app. split; [eapply round_happened; exact F|exact IH]. Qed.
Lemma learned_happened P total ts : learned_from (op_solve P total) ts -> Forall (component_happened (pr_env P)) (concat ts).
Proof.
  intros (plans & explored & -> & _ & FP & _ & FE). apply Forall_concat. apply Forall_app. split.
  - eapply Forall_impl; [|exact FP]. intros t (plan & w & b & H). eapply plan_happened. exact H.
  - eapply Forall_impl; [|exact FE]. intros t (w & rs & ws & final & _ & W & FC & ->). unfold learned_steps. rewrite flat_map_app, map_app. apply Forall_app. split; [exact (walk_happened _ _ _ _ W)|].
    destruct FC as [-> |(r & -> & F & _)]; [constructor|]. cbn [flat_map]. rewrite app_nil_r. eapply round_happened. exact F.
Qed.
Lemma learned_real tss : Forall2 learned_from ops tss -> forall n cp, In cp (of_action n (concat tss)) -> real_success dom real cp.
Proof.
  intros F n cp I. unfold of_action in I. apply filter_In in I. destruct I as (I & B). rewrite !andb_true_iff in B. destruct B as ((OK & _) & _). apply in_concat in I. destruct I as (t & T & I). apply in_concat in T. destruct T as (ts & TS & T).
  destruct (Forall2_In_l _ _ _ _ F TS) as (o & O & LF). destruct o as [t0|P total].
  - cbn in LF. subst ts. destruct T as [<-|[]]. exact (proj1 REAL t0 cp O I OK).
  - pose proof (learned_happened P total ts LF) as H. rewrite Forall_forall in H. eapply happened_real; [exact (proj2 REAL P total O)| |exact OK]. apply H. apply in_concat. exists t. split; assumption.
Qed.
Section Traces.
Variable tss : list (list (list ncomponent)).
Hypothesis LF : Forall2 learned_from ops tss.
Hypothesis TR : numeric_train le unit fit hull schmidt dom degree (concat tss) = Ok (nm_learners M).
Hypothesis EL : exact_libraries unit fit hull schmidt.
Hypothesis OL : online_input unit fit le dom degree (concat tss).
Hypothesis RN : real_numeric_actions dom degree real.
Hypothesis FINE : exists j, fine = (unit * j)%positive.
Hypothesis REG : exact_regression unit fit.
Variable model : list (string * exported).
Hypothesis CM : construct_safe_action_model unit fine fit rank fl dom (nm_learners M) = Ok model.
Lemma run_safe n a e r np : dict_get (d_actions dom) n = Some a -> dict_get model n = Some e -> real n = Some (r, np) -> of_action n (concat tss) <> [] -> safe_export dom r np e.
Proof. intros GA GE ER NE. exact (model_safe le unit fine fit hull schmidt rank dom degree (concat tss) (nm_learners M) fl model EL OL TR CM n a e GA GE NE real r np RN (learned_real tss LF n) ER FINE REG). Qed.
Lemma plan_succeeds P k' before sv after plan total : real_environment dom real (pr_env P) -> guarded dom (concat tss) -> uses_safe k' ->
  Forall (fun s : solver => is_ok (fst (s model P)) = false) before -> sv model P = (st_ok, plan) -> plan_solves dom model (pr_env P) (pr_init P) plan ->
  exists t w, plan_run (pr_env P) (pr_init P) plan t w true /\ length t = length plan /\ en_goal (pr_env P) w = Ok true /\
  let r := try_to_solve unit fine fit hull schmidt rank svm limit fl dom rd starvation max_failed max_file k' (Some (before ++ sv :: after)) P M total in
  (forall M' goal n, r = Ok (M', (goal, n)) -> goal = true /\ n = length plan) /\
  (online_input unit fit le dom degree (concat tss ++ [t]) -> (exists M', r = Ok (M', (true, length plan))) \/ (r = Err RuntimeError /\ hull_failure hull)).
Proof.
  intros RE GU US FB SV PS.
  exact (safe_solves le unit fine fit hull schmidt rank dom degree (concat tss) (nm_learners M) fl model EL OL TR CM real RN (learned_real tss LF) FINE REG GU (pr_env P) RE svm limit rd starvation max_failed max_file M P eq_refl eq_refl run_tables run_keys k' before sv after plan total US FB SV PS).
Qed.
End Traces.
End Final.
Lemma learned_safely le unit fine fit hull schmidt rank svm limit fl dom rd starvation max_failed max_file k solvers degree ops M results :
  fair rd -> noam_run le unit fine fit hull schmidt rank svm limit fl dom rd starvation max_failed max_file k solvers degree ops = Ok (M, results) -> ground_sets ops ->
  forall real, real_ops dom real ops -> exact_libraries unit fit hull schmidt -> real_numeric_actions dom degree real -> (exists j, fine = (unit * j)%positive) -> exact_regression unit fit ->
  forall tss, Forall2 learned_from ops tss -> numeric_train le unit fit hull schmidt dom degree (concat tss) = Ok (nm_learners M) -> online_input unit fit le dom degree (concat tss) ->
  forall model n a e r np, construct_safe_action_model unit fine fit rank fl dom (nm_learners M) = Ok model -> dict_get (d_actions dom) n = Some a -> dict_get model n = Some e -> real n = Some (r, np) ->
  of_action n (concat tss) <> [] -> safe_export dom r np e.
Proof.
  intros _ _ _ real RO EL RN FINE REG tss LF TR OL model n a e r np CM GA GE ER NE.
  exact (run_safe le unit fine fit hull schmidt rank fl dom degree ops M real RO tss LF TR EL OL RN FINE REG model CM n a e r np GA GE ER NE).
Qed.
