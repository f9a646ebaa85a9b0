(** * Attempts to solve problems *)
From Verif Require Import NoamSpec NoamLearn NoamRun OnumTrain UcProofs CondFinal VocabProofs Prelude PreludeProofs.
From Coq Require Import Lia.
Open Scope string_scope. Open Scope list_scope. Open Scope nat_scope.

Lemma executed_plan E : forall plan w t w' b, NoamModel.execute_plan E w plan = Ok (t, w', b) -> plan_run E w plan t w' b.
Proof.
  induction plan as [|c plan IH]; intros w t w' b; cbn [NoamModel.execute_plan]; [intros [= <- <- <-]; constructor|]. destruct (NoamModel.observe E w c) as [(w1 & ok)|] eqn:O; [|discriminate]. apply observe_real in O. cbn [bind]. destruct ok.
  - destruct (NoamModel.execute_plan E w1 plan) as [((t1 & w2) & b1)|] eqn:X; [|discriminate]. intros [= <- <- <-]. constructor; [exact O|apply IH; exact X].
  - intros [= <- <- <-]. assert (w1 = w) by apply O. subst w1. constructor. exact O.
Qed.

Section Solve.
Variable le : text -> text -> bool.
Variables unit fine : positive.
Variable fit : list (list Q) -> list Q -> list Q * Q * bool.
Variable hull : list (list Q) -> option (list (list Q) * list Q).
Variable schmidt : list (list Q) -> list (list Q) -> list (list Q).
Variable rank : list (list Q) -> nat.
Variable svm : list (list Q * bool) -> list Q * Q.
Variable limit : nat.
Variable flatten : bool.
Variable dom : domain.
Variable rd : random.
Variables starvation max_failed max_file : nat.
Hypothesis FAIR : fair rd.
Notation tables := (NoamLearn.tables dom).
Notation train := (numeric_train_trace unit fit hull schmidt dom).

Record grew (b : nat) (M M' : noam) (ts : list (list ncomponent)) : Prop :=
  { gr_learn : fold_res train ts (nm_learners M) = Ok (nm_learners M');
    gr_tables : tables (nm_failures M');
    gr_bound : bounded b M -> bounded b M';
    gr_global : nm_global M <= nm_global M';
    gr_keys : info_keys M' = info_keys M }.
Lemma grew_refl b M : tables (nm_failures M) -> grew b M M [].
Proof. intros T. constructor; [reflexivity|exact T|tauto|lia|reflexivity]. Qed.
Lemma grew_trans b M1 M2 M3 ts ts' : grew b M1 M2 ts -> grew b M2 M3 ts' -> grew b M1 M3 (ts ++ ts').
Proof. intros [A1 A2 A3 A4 A5] [B1 B2 B3 B4 B5]. constructor; [rewrite fold_res_app, A1; exact B1|exact B2|tauto|lia|congruence]. Qed.
Lemma trace_grew b M t M' : tables (nm_failures M) -> noam_train_trace unit fit hull schmidt dom M t = Ok M' -> grew b M M' [t].
Proof.
  intros T X. pose proof (trace_lifts unit fit hull schmidt dom M t T) as H. rewrite X in H. destruct H as (H & T' & E). constructor; [cbn [fold_res]; rewrite H; reflexivity|exact T'| | |]; rewrite E; [intros B; exact B|cbn; lia|reflexivity].
Qed.
Lemma finish_grew b M P g s t1 t2 M' : tables (nm_failures M) -> finish max_file M P g s t1 t2 = Ok M' -> grew b M M' [].
Proof.
  intros T. unfold finish. destruct (end_episode world call max_file (nm_rec M) _) as [r|] eqn:EE; [|discriminate]. intros [= <-]. constructor; [reflexivity|exact T|intros B; exact B|cbn; lia|].
  unfold info_keys. cbn [with_rec nm_rec]. unfold end_episode in EE. destruct (dict_get (r_info world call (nm_rec M)) "sum_successful_actions"); [|discriminate]. destruct (dict_get (r_info world call (nm_rec M)) "sum_failed_actions"); [|discriminate].
  injection EE as <-. cbn. unfold dict_keys. rewrite map_map. reflexivity.
Qed.
(** ** Exploration with the final review is training from the trace of its learned steps *)
Lemma as_components E : forall rs w ws, walk E w rs ws -> Forall (fun s => NoDup (c_params (es_call s))) (learned_steps rs).
Proof.
  induction 1 as [w|w r w' rs ws MV _ IH]; [constructor|]. cbn [learned_steps flat_map]. apply Forall_app. split; [|exact IH]. destruct MV as (F & _). unfold round_steps in F. apply Forall_app in F. destruct F as (F & _). eapply Forall_impl; [|exact F]. intros s (_ & _ & _ & H). exact H.
Qed.
Lemma dead_components E w r : dead_end E w r -> Forall (fun s => NoDup (c_params (es_call s))) (learned_steps [r]).
Proof. intros (F & _). unfold learned_steps. cbn [flat_map]. rewrite app_nil_r. unfold round_steps in F. apply Forall_app in F. destruct F as (F & _). eapply Forall_impl; [|exact F]. intros s (_ & _ & _ & H). exact H. Qed.
Lemma components_fold l : Forall (fun s => NoDup (c_params (es_call s))) l -> forall L, fold_res (numeric_train_component unit fit hull schmidt dom) (map as_component l) L = fold_res (numeric_train_transition unit fit hull schmidt dom) (map as_component l) L.
Proof.
  induction 1 as [|s l N _ IH]; intros L; [reflexivity|]. cbn [map fold_res]. unfold numeric_train_component at 1. change (c_params (cp_call (nc_comp (as_component s)))) with (c_params (es_call s)). rewrite (proj2 (contains_duplicates_spec _) N).
  destruct (numeric_train_transition unit fit hull schmidt dom L (as_component s)); [apply IH|reflexivity].
Qed.
Lemma explored_grew k P M w total t1 t2 M' goal n b : starts_at P w -> total <= b -> NoDup (en_actions (pr_env P)) -> tables (nm_failures M) ->
  explore_and_finish unit fit hull schmidt dom rd starvation max_failed max_file k P M w total t1 t2 = Ok (M', (goal, n)) ->
  exists t, grew b M M' [t] /\ exploration_trace P t /\
    if goal then reached_in P n else n = total /\ exists rs ws final, walk (pr_env P) w rs ws /\ Forall (fun w => en_goal (pr_env P) w = Ok false) ws /\ length ws <= total /\
      ((final = [] /\ (length ws = total \/ max_failed <= nm_fails M' \/ forall c, In c (en_actions (pr_env P)) -> ~ NoDup (c_params c))) \/ exists r, final = [r] /\ dead_end (pr_env P) (last_state w ws) r).
Proof.
  intros ST TB ND T. unfold explore_and_finish. destruct (explore unit fit hull schmidt dom rd starvation max_failed k (pr_env P) M w total) as [(M1 & (g1 & n1))|] eqn:X; [|discriminate]. cbn [bind].
  destruct (explore_did unit fit hull schmidt dom rd starvation max_failed FAIR k (pr_env P) M w total M1 g1 n1 ND T X) as (rs & ws & final & W & D & LW & FL & RES).
  destruct (noam_reviews unit fit hull schmidt dom M1) as [M2|] eqn:R; [|discriminate]. cbn [bind]. pose proof (reviews_lifts unit fit hull schmidt dom M1 (di_tables _ _ _ _ _ _ _ _ _ _ _ D)) as RL. rewrite R in RL. destruct RL as (RL & T2 & E2).
  destruct (finish max_file M2 P g1 false t1 t2) as [M3|] eqn:FI; [|discriminate]. intros Y. injection Y as <- <- <-.
  assert (NF : nm_fails M3 = nm_fails M1). { unfold finish in FI. destruct (end_episode world call max_file (nm_rec M2) _); [|discriminate]. injection FI as <-. cbn. rewrite E2. reflexivity. }
  assert (FC : final = [] \/ exists r, final = [r] /\ dead_end (pr_env P) (last_state w ws) r) by (destruct g1; [left; apply RES|destruct RES as (_ & _ & [(-> & _)|H]); [left; reflexivity|right; exact H]]).
  exists (map as_component (learned_steps (rs ++ final))). split; [|split].
  - apply (grew_trans b M M2 M3 [_] []); [|eapply finish_grew; eassumption]. constructor; [|exact T2| | |].
    + cbn [fold_res]. unfold numeric_train_trace. rewrite components_fold.
      * pose proof (di_learn _ _ _ _ _ _ _ _ _ _ _ D) as DL. cbn [with_fails nm_learners] in DL. rewrite DL. cbn [bind]. rewrite RL. reflexivity.
      * unfold learned_steps. rewrite flat_map_app. apply Forall_app. split; [apply (as_components _ _ _ _ W)|]. destruct FC as [-> |(r & -> & DE)]; [constructor|apply (dead_components _ _ _ DE)].
    + rewrite E2. intros B n0 j G. cbn [with_learners nm_last] in G. pose proof (di_bound _ _ _ _ _ _ _ _ _ _ _ D) as DB.
      assert (HB : forall b', bounded b' M -> total <= b' -> bounded b' M1).
      { clear -X FAIR ND T. intros b' B' TB'. revert X. unfold explore. destruct (create_frontier dom rd k (pr_env P) M) as [(Mf & frontier)|] eqn:CF; [|discriminate]. cbn [bind]. destruct (frontier_spec dom rd FAIR _ _ _ _ _ CF) as (-> & A & L & _). intros X.
        destruct (loop_did unit fit hull schmidt dom rd starvation max_failed FAIR b' k (pr_env P) total ND total 0 (with_fails (drawn M) 0) w frontier M1 g1 n1 ltac:(lia) T A L X) as (rs & ws & final & _ & D & _). apply (di_bound _ _ _ _ _ _ _ _ _ _ _ D). exact B'. }
      exact (HB b B TB n0 j G).
    + rewrite E2. cbn [with_learners nm_global]. pose proof (di_marks _ _ _ _ _ _ _ _ _ _ _ D) as DM. cbn [with_fails nm_global] in DM. lia.
    + rewrite E2. exact (di_keys _ _ _ _ _ _ _ _ _ _ _ D).
  - exists w, rs, ws, final. split; [exact ST|]. split; [exact W|]. split; [exact FC|reflexivity].
  - destruct g1.
    + destruct RES as (-> & -> & ws' & w' & -> & G & FG). right. exists w, rs, ws', w'. split; [exact ST|]. split; [exact W|]. split; [reflexivity|]. split; assumption.
    + destruct RES as (-> & FG & RES). split; [reflexivity|]. exists rs, ws, final. split; [exact W|]. split; [exact FG|]. split; [exact LW|]. destruct RES as [(-> & OR)|DE]; [left; split; [reflexivity|]|right; exact DE].
      destruct OR as [OR|[OR|OR]]; [left; exact OR|right; left; rewrite NF; exact OR|right; right]. intros c I N. assert (J : In c (injective_actions (pr_env P))) by (apply injective_In; split; assumption). unfold injective_count in OR. destruct (injective_actions (pr_env P)); [destruct J|discriminate].
Qed.

(** ** Solvers *)
Lemma at_start P : starts_at P (pr_init P).
Proof. exists [], [], true. constructor. Qed.
Lemma plan_last E w plan t w' b : plan_run E w plan t w' b -> forall t0 cp, t = t0 ++ [cp] -> (cp_next (nc_comp cp), nc_next cp) = w'.
Proof.
  induction 1 as [w|w c w1 plan t w2 b RO PR IH|w c plan RO]; intros t0 cp ET; [destruct t0; discriminate ET| |destruct t0 as [|x t0]; [injection ET as <-; destruct w; reflexivity|destruct t0; discriminate ET]].
  destruct t0 as [|x t0]; injection ET; [intros E0 <-|intros E0 <-; exact (IH _ _ E0)]. subst t. inversion PR; subst. destruct w2; reflexivity.
Qed.
Lemma solvers_grew b solvers model P : forall last M M' st len lw, is_ok last = false -> tables (nm_failures M) -> use_solvers unit fit hull schmidt dom solvers last model P M = Ok (M', (st, len, lw)) ->
  exists ts, grew b M M' ts /\ length ts <= 1 /\ Forall (plan_trace P) ts /\
    if is_ok st then exists plan t w ok, plan_run (pr_env P) (pr_init P) plan t w ok /\ len = length t /\ en_goal (pr_env P) w = Ok true else exists w, lw = Some w /\ starts_at P w.
Proof.
  induction solvers as [|sv solvers IH]; intros last M M' st len lw NL T; cbn [use_solvers].
  - intros X. injection X as <- <- <- <-. exists []. split; [apply grew_refl; exact T|]. split; [cbn; lia|]. split; [constructor|]. rewrite NL. eexists. split; [reflexivity|apply at_start].
  - destruct (sv model P) as (st0 & plan). destruct (is_ok st0) eqn:OK; [|apply IH; assumption].
    destruct (NoamModel.execute_plan (pr_env P) (pr_init P) plan) as [((t & w) & ok)|] eqn:EP; [|discriminate]. cbn [bind]. apply executed_plan in EP. destruct (en_goal (pr_env P) w) as [reached|] eqn:G; [|discriminate]. cbn [bind].
    destruct (noam_train_trace unit fit hull schmidt dom M t) as [M1|] eqn:TR; [|discriminate]. cbn [bind]. pose proof (trace_grew b M t M1 T TR) as GR.
    assert (PT : Forall (plan_trace P) [t]) by (constructor; [exists plan, w, ok; exact EP|constructor]). destruct reached.
    + intros X. injection X as <- <- <- <-. exists [t]. split; [exact GR|]. split; [cbn; lia|]. split; [exact PT|]. cbn [is_ok]. exists plan, t, w, ok. split; [exact EP|split; [reflexivity|exact G]].
    + destruct (rev t) as [|cp r] eqn:RT; [discriminate|]. assert (ET : t = rev r ++ [cp]) by (rewrite <- (rev_involutive t), RT; reflexivity). pose proof (plan_last _ _ _ _ _ _ EP _ _ ET) as EW. intros X. injection X as <- <- <- <-. exists [t]. split; [exact GR|]. split; [cbn; lia|]. split; [exact PT|]. rewrite EW. destruct ok; (eexists; split; [reflexivity|exists plan, t; eexists; exact EP]).
Qed.
Lemma solved_grew b safe solvers P M M' st len lw : tables (nm_failures M) -> solve_with unit fine fit hull schmidt rank svm limit flatten dom safe solvers P M = Ok (M', (st, len, lw)) ->
  exists ts, grew b M M' ts /\ length ts <= 1 /\ Forall (plan_trace P) ts /\
    if is_ok st then exists plan t w ok, plan_run (pr_env P) (pr_init P) plan t w ok /\ len = length t /\ en_goal (pr_env P) w = Ok true else exists w, lw = Some w /\ starts_at P w.
Proof. intros T. unfold solve_with. destruct (if safe then _ else _) as [model|]; [|discriminate]. cbn [bind]. apply solvers_grew; [reflexivity|exact T]. Qed.

Definition attempt (b : nat) (P : problem) (total : nat) (M M' : noam) (goal : bool) (n : nat) (most : nat) : Prop :=
  exists plans explored, grew b M M' (plans ++ explored) /\ length plans <= most /\ Forall (plan_trace P) plans /\ length explored <= 1 /\ Forall (exploration_trace P) explored /\ outcome P total goal n.
Lemma explored_attempt k P M w total t1 t2 M' goal n b : starts_at P w -> total <= b -> NoDup (en_actions (pr_env P)) -> tables (nm_failures M) ->
  explore_and_finish unit fit hull schmidt dom rd starvation max_failed max_file k P M w total t1 t2 = Ok (M', (goal, n)) -> attempt b P total M M' goal n 0.
Proof.
  intros ST TB ND T X. destruct (explored_grew k P M w total t1 t2 M' goal n b ST TB ND T X) as (t & GR & ET & RES). exists [], [t]. split; [exact GR|]. split; [cbn; lia|]. split; [constructor|]. split; [cbn; lia|]. split; [constructor; [exact ET|constructor]|].
  unfold outcome. destruct goal; [exact RES|apply RES].
Qed.
Lemma attempt_before b P total M1 M2 M3 goal n most ts : grew b M1 M2 ts -> length ts <= 1 -> Forall (plan_trace P) ts -> attempt b P total M2 M3 goal n most -> attempt b P total M1 M3 goal n (S most).
Proof.
  intros G L F (plans & explored & G' & L' & F' & LE & FE & O). exists (ts ++ plans), explored. split; [rewrite <- app_assoc; eapply grew_trans; eassumption|]. split; [rewrite app_length; lia|]. split; [apply Forall_app; split; assumption|]. split; [exact LE|split; assumption].
Qed.
Lemma attempt_more b P total M M' goal n most most' : most <= most' -> attempt b P total M M' goal n most -> attempt b P total M M' goal n most'.
Proof. intros LE (plans & explored & G & L & H). exists plans, explored. split; [exact G|]. split; [lia|exact H]. Qed.
Lemma finished_attempt b P total M M' ts plan t w ok M1 g s t1 t2 n : tables (nm_failures M) -> grew b M M1 ts -> length ts <= 1 -> Forall (plan_trace P) ts -> plan_run (pr_env P) (pr_init P) plan t w ok -> n = length t -> en_goal (pr_env P) w = Ok true ->
  finish max_file M1 P g s t1 t2 = Ok M' -> attempt b P total M M' true n 1.
Proof.
  intros T G L F PR -> GO FI. exists ts, []. split; [apply (grew_trans b M M1 M' ts []); [exact G|eapply finish_grew; [apply G|exact FI]]|]. split; [exact L|]. split; [exact F|]. split; [cbn; lia|]. split; [constructor|]. left. exists plan, t, w, ok. split; [exact PR|split; [reflexivity|exact GO]].
Qed.
Lemma policy_attempt b k solvers P M total safe M' goal n : total <= b -> NoDup (en_actions (pr_env P)) -> tables (nm_failures M) ->
  exploration_policy unit fine fit hull schmidt rank svm limit flatten dom rd starvation max_failed max_file k solvers P M total safe = Ok (M', (goal, n)) -> attempt b P total M M' goal n 1.
Proof.
  intros TB ND T. assert (OPT : (let* (M1, (st, len, last)) := solve_with unit fine fit hull schmidt rank svm limit flatten dom false solvers P M in
      if is_ok st then let* M2 := finish max_file M1 P true true (status_name safe) (status_name st) in Ok (M2, (true, len))
      else match last with Some w => explore_and_finish unit fit hull schmidt dom rd starvation max_failed max_file k P M1 w total (status_name safe) (status_name st) | None => Err AttributeError end) = Ok (M', (goal, n)) -> attempt b P total M M' goal n 1).
  { destruct (solve_with unit fine fit hull schmidt rank svm limit flatten dom false solvers P M) as [(M1 & ((st & len) & lw))|] eqn:SW; [|discriminate]. cbn [bind]. destruct (solved_grew b _ _ _ _ _ _ _ _ T SW) as (ts & GR & LT & FT & RES). destruct (is_ok st).
    - destruct (finish max_file M1 P true true _ _) as [M2|] eqn:FI; [|discriminate]. intros X. injection X as <- <- <-. destruct RES as (plan & t & w & ok & PR & EN & GO). eapply finished_attempt; eassumption.
    - destruct RES as (w & -> & ST). intros X. eapply attempt_before; [exact GR|exact LT|exact FT|]. eapply explored_attempt; [exact ST|exact TB|exact ND|apply GR|exact X]. }
  unfold exploration_policy. destruct k; try exact OPT. intros X. eapply attempt_more; [|eapply explored_attempt; [apply at_start|..]; eassumption]. lia.
Qed.
Lemma try_attempt b k solvers P M total M' goal n : total <= b -> NoDup (en_actions (pr_env P)) -> tables (nm_failures M) ->
  try_to_solve unit fine fit hull schmidt rank svm limit flatten dom rd starvation max_failed max_file k solvers P M total = Ok (M', (goal, n)) -> attempt b P total M M' goal n 2.
Proof.
  intros TB ND T. unfold try_to_solve. destruct solvers as [solvers|]; [|discriminate].
  assert (SAFE : (let* (M1, (st, len, _)) := solve_with unit fine fit hull schmidt rank svm limit flatten dom true solvers P M in
      match st with
      | st_ok => let* M2 := finish max_file M1 P true true (status_name st) (status_name st_irrelevant) in Ok (M2, (true, len))
      | st_not_applicable => Err ValueError
      | _ => exploration_policy unit fine fit hull schmidt rank svm limit flatten dom rd starvation max_failed max_file k solvers P M1 total st
      end) = Ok (M', (goal, n)) -> attempt b P total M M' goal n 2).
  { destruct (solve_with unit fine fit hull schmidt rank svm limit flatten dom true solvers P M) as [(M1 & ((st & len) & lw))|] eqn:SW; [|discriminate]. cbn [bind]. destruct (solved_grew b _ _ _ _ _ _ _ _ T SW) as (ts & GR & LT & FT & RES). intros X.
    assert (POL : exploration_policy unit fine fit hull schmidt rank svm limit flatten dom rd starvation max_failed max_file k solvers P M1 total st = Ok (M', (goal, n)) -> attempt b P total M M' goal n 2).
    { intros Y. eapply attempt_before; [exact GR|exact LT|exact FT|]. eapply policy_attempt; [exact TB|exact ND|apply GR|exact Y]. }
    destruct st; try (apply POL; exact X); [|discriminate X]. cbn [is_ok] in RES. destruct (finish max_file M1 P true true _ _) as [M2|] eqn:FI; [|discriminate]. cbn [bind] in X. injection X as <- <- <-. destruct RES as (plan & t & w & ok & PR & EN & GO). eapply attempt_more; [|eapply finished_attempt; eassumption]. lia. }
  assert (OPT : (let* (M1, (st, len, _)) := solve_with unit fine fit hull schmidt rank svm limit flatten dom false solvers P M in
      if is_ok st then let* M2 := finish max_file M1 P true true (status_name st_irrelevant) (status_name st) in Ok (M2, (true, len))
      else explore_and_finish unit fit hull schmidt dom rd starvation max_failed max_file k P M1 (pr_init P) total (status_name st_no_solution) (status_name st)) = Ok (M', (goal, n)) -> attempt b P total M M' goal n 2).
  { destruct (solve_with unit fine fit hull schmidt rank svm limit flatten dom false solvers P M) as [(M1 & ((st & len) & lw))|] eqn:SW; [|discriminate]. cbn [bind]. destruct (solved_grew b _ _ _ _ _ _ _ _ T SW) as (ts & GR & LT & FT & RES). destruct (is_ok st).
    - destruct (finish max_file M1 P true true _ _) as [M2|] eqn:FI; [|discriminate]. intros X. injection X as <- <- <-. destruct RES as (plan & t & w & ok & PR & EN & GO). eapply attempt_more; [|eapply finished_attempt; eassumption]. lia.
    - intros X. eapply (attempt_more _ _ _ _ _ _ _ 1); [lia|]. eapply attempt_before; [exact GR|exact LT|exact FT|]. eapply explored_attempt; [apply at_start|exact TB|exact ND|apply GR|exact X]. }
  destruct k; first [exact SAFE|exact OPT].
Qed.

(** ** Runs *)
Definition op_fine (b : nat) (o : noam_op) : Prop := match o with op_train _ => True | op_solve P total => NoDup (en_actions (pr_env P)) /\ total <= b end.
Lemma runs b k solvers ops : Forall (op_fine b) ops -> forall M rs0 M' rs, tables (nm_failures M) ->
  fold_res (noam_do unit fine fit hull schmidt rank svm limit flatten dom rd starvation max_failed max_file k solvers) ops (M, rs0) = Ok (M', rs) ->
  exists tss more, Forall2 learned_from ops tss /\ grew b M M' (concat tss) /\ rs = rs0 ++ more /\ results_fit ops more.
Proof.
  induction 1 as [|o ops OF _ IH]; intros M rs0 M' rs T; cbn [fold_res].
  - intros X. injection X as <- <-. exists [], []. split; [constructor|]. split; [apply grew_refl; exact T|]. split; [rewrite app_nil_r; reflexivity|constructor].
  - destruct o as [t|P total]; cbn [noam_do fst snd].
    + destruct (noam_train_trace unit fit hull schmidt dom M t) as [M1|] eqn:TR; [|discriminate]. cbn [bind]. pose proof (trace_grew b M t M1 T TR) as GR. intros X. destruct (IH M1 rs0 M' rs (gr_tables _ _ _ _ GR) X) as (tss & more & F & G & E & RF).
      exists ([t] :: tss), more. split; [constructor; [reflexivity|exact F]|]. split; [exact (grew_trans b _ _ _ [t] _ GR G)|]. split; assumption.
    + destruct (try_to_solve unit fine fit hull schmidt rank svm limit flatten dom rd starvation max_failed max_file k solvers P M total) as [(M1 & (goal & n))|] eqn:TS; [|discriminate]. cbn [bind]. destruct OF as (ND & TB).
      destruct (try_attempt b k solvers P M total M1 goal n TB ND T TS) as (plans & explored & GR & L & F & LE & FE & O). intros X. destruct (IH M1 (rs0 ++ [(goal, n)]) M' rs (gr_tables _ _ _ _ GR) X) as (tss & more & FL & G & E & RF).
      exists ((plans ++ explored) :: tss), ((goal, n) :: more). split; [constructor; [exists plans, explored; auto|exact FL]|]. split; [exact (grew_trans b _ _ _ _ _ GR G)|]. split; [rewrite E, <- app_assoc; reflexivity|]. constructor; [exact O|exact RF].
Qed.
End Solve.
