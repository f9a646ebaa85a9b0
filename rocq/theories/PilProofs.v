(** * One fold of online learning: explorations, plans and single problems *)
From Coq Require Import Lia.
From Verif Require Import NoamSpec NoamLearn NoamRun NoamSolve SemiSpec SemiProofs SemiFinal EpisodeProofs TextProofs VocabProofs PilModel PilSpec Prelude PreludeProofs.
Open Scope string_scope. Open Scope list_scope. Open Scope nat_scope.

Section Proofs.
Variable le : text -> text -> bool.
Variables unit fine : positive.
Variable fit : list (list Q) -> list Q -> list Q * Q * bool.
Variable hull : list (list Q) -> option (list (list Q) * list Q).
Variable schmidt : list (list Q) -> list (list Q) -> list (list Q).
Variable rank : list (list Q) -> nat.
Variable svm : list (list Q * bool) -> list Q * Q.
Variable limit : nat.
Variable flatten : bool.
Variable dom : domain.
Variable rd : random.
Variables starvation max_steps max_failed max_file : nat.
Hypothesis FAIR : fair rd.
Notation names := (dict_keys (d_actions dom)).
Notation tables := (NoamLearn.tables dom).
Notation train := (numeric_train_trace unit fit hull schmidt dom).

(** ** Everything that is executed is recorded *)
Definition rec_on (r r' : recorder world call) : Prop := exists l, record_all r l = Ok r' /\ Forall (fun s => In (c_name (es_call s)) names) l.
Lemma on_refl r : rec_on r r. Proof. exists []. split; [reflexivity|constructor]. Qed.
Lemma on_trans r1 r2 r3 : rec_on r1 r2 -> rec_on r2 r3 -> rec_on r1 r3.
Proof. intros (l & A & B) (l' & A' & B'). exists (l ++ l'). rewrite record_app, A. split; [exact A'|apply Forall_app; auto]. Qed.
Lemma on_traj r r' : rec_on r r' -> exists l, record_all r l = Ok r' /\ Forall (fun s => In (c_name (es_call s)) names) l /\ r_traj world call r' = r_traj world call r ++ l.
Proof.
  intros (l & A & B). exists l. split; [exact A|]. split; [exact B|]. clear B. revert r A. induction l as [|s l IH]; intros r; unfold record_all; cbn [fold_res]; [intros [= <-]; rewrite app_nil_r; reflexivity|].
  destruct (record_single_step world call c_name r (es_call s) (es_ok s) (es_prev s) (es_next s)) as [r1|] eqn:R; [|discriminate]. cbn [bind]. intros A. rewrite (IH r1 A). apply record_traj in R. rewrite R, <- app_assoc. destruct s; reflexivity.
Qed.
Lemma execute_on E M c w i M' w' ok : execute_selected unit fit hull schmidt dom E M c w i = Ok (M', (w', ok)) -> rec_on (nm_rec M) (nm_rec M').
Proof.
  unfold execute_selected. destruct (NoamModel.observe E w c) as [(w2 & ok2)|]; [|discriminate]. cbn [bind]. destruct (triplet_snapshot dom (fst w) (fst w2) c) as [?|] eqn:TS; [|discriminate]. cbn [bind].
  destruct (record_single_step world call c_name (nm_rec M) c ok2 w w2) as [r|] eqn:R; [|discriminate]. cbn [bind].
  assert (IN : In (c_name c) names) by (unfold triplet_snapshot, dict_lookup in TS; destruct (dict_get (d_actions dom) (c_name c)) eqn:G; [apply dict_get_key in G; exact G|discriminate TS]).
  assert (ON : rec_on (nm_rec M) r). { exists [step_of w c w2 ok2]. split; [|constructor; [exact IN|constructor]]. unfold record_all. cbn [fold_res]. unfold step_of, es_call, es_ok, es_prev, es_next. cbn. rewrite R. reflexivity. }
  destruct i.
  - destruct (noam_transition unit fit hull schmidt dom _ _ _) as [(L & F)|]; [|discriminate]. cbn [bind]. intros X. injection X as <- <- <-. destruct ok2; exact ON.
  - cbn [bind]. intros X. injection X as <- <- <-. destruct ok2; exact ON.
Qed.
Lemma select_on k E M w frontier M' r rest : select unit fit hull schmidt dom rd starvation k E M w frontier = Ok (M', r, rest) -> rec_on (nm_rec M) (nm_rec M').
Proof.
  unfold select. match goal with |- bind ?ch _ = _ -> _ => assert (CH : forall M1 c0 r0, ch = Ok (M1, c0, r0) -> nm_rec M1 = nm_rec M) end.
  { intros M1 c0 r0. destruct k; try (intros X; apply choose_spec in X; destruct X as (_ & _ & _ & [-> | ->]); reflexivity); destruct frontier as [|d frontier]; try discriminate; intros [= <- <- <-]; reflexivity. }
  destruct (match k with noam_learner | informative_svm => _ | _ => _ end) as [((M1 & c0) & r0)|]; [|discriminate]. cbn [bind]. rewrite <- (CH _ _ _ eq_refl). clear CH.
  destruct (execute_selected unit fit hull schmidt dom E M1 c0 w true) as [(M2 & (w2 & ok2))|] eqn:X; [|discriminate]. cbn [bind]. intros Y. injection Y as <- <- <-. exact (execute_on _ _ _ _ _ _ _ _ X).
Qed.
Lemma retry_on k E step : forall fuel M w r frontier M' r', retry unit fit hull schmidt dom rd starvation fuel k E step M w r frontier = Ok (M', r') -> rec_on (nm_rec M) (nm_rec M').
Proof.
  induction fuel as [|fuel IH]; intros M w ((c & ok) & w') frontier M' r'; cbn [retry].
  - destruct ok; [|destruct frontier; [|discriminate]]; intros X; injection X as <- <-; apply on_refl.
  - destruct ok; [intros X; injection X as <- <-; apply on_refl|]. destruct frontier as [|d frontier]; [intros X; injection X as <- <-; apply on_refl|].
    destruct (select unit fit hull schmidt dom rd starvation k E M w (d :: frontier)) as [((M1 & r1) & rest)|] eqn:S1; [|discriminate]. cbn [bind]. intros X. apply IH in X. exact (on_trans _ _ _ (select_on _ _ _ _ _ _ _ _ S1) X).
Qed.
Lemma base_on E : forall frontier M w M' r, base_select unit fit hull schmidt dom E M w frontier = Ok (M', r) -> rec_on (nm_rec M) (nm_rec M').
Proof.
  induction frontier as [|d frontier IH]; intros M w M' r; [discriminate|]. cbn [base_select]. destruct (execute_selected unit fit hull schmidt dom E M d w false) as [(M1 & (w1 & ok1))|] eqn:X; [|discriminate]. cbn [bind]. apply execute_on in X.
  destruct ok1; [intros Y; injection Y as <- <-; exact X|]. destruct frontier as [|d' frontier]; [intros Y; injection Y as <- <-; exact X|]. intros Y. exact (on_trans _ _ _ X (IH _ _ _ _ Y)).
Qed.
Lemma step_on k E step M w frontier M' next : explore_step unit fit hull schmidt dom rd starvation k E step M w frontier = Ok (M', next) -> rec_on (nm_rec M) (nm_rec M').
Proof.
  unfold explore_step. destruct (select unit fit hull schmidt dom rd starvation k E M w frontier) as [((M1 & r1) & rest)|] eqn:S1; [|discriminate]. cbn [bind]. apply select_on in S1.
  destruct (retry unit fit hull schmidt dom rd starvation (length frontier) k E step (mark M1 (fst (fst r1)) step) w r1 rest) as [(M2 & ((c2 & ok2) & w2))|] eqn:R; [|discriminate]. cbn [bind]. apply retry_on in R. pose proof (on_trans _ _ _ S1 R) as O2.
  destruct ok2; [intros [= <- <-]; exact O2|]. destruct (create_frontier dom rd k E M2) as [(M3 & frontier')|] eqn:CF; [|discriminate]. cbn [bind]. destruct (frontier_spec dom rd FAIR _ _ _ _ _ CF) as (-> & _).
  destruct (base_select unit fit hull schmidt dom E (drawn M2) w frontier') as [(M4 & ((c4 & ok4) & w4))|] eqn:BS; [|discriminate]. cbn [bind]. apply base_on in BS. pose proof (on_trans _ _ _ O2 BS) as O4. destruct ok4; intros [= <- <-]; exact O4.
Qed.
Lemma loop_on k E total : forall todo step M w frontier M' r, explore_loop unit fit hull schmidt dom rd starvation max_failed todo k E total step M w frontier = Ok (M', r) -> rec_on (nm_rec M) (nm_rec M').
Proof.
  induction todo as [|todo IH]; intros step M w frontier M' r; cbn [explore_loop]; [intros X; injection X as <- <-; apply on_refl|]. destruct frontier as [|d frontier]; [intros X; injection X as <- <-; apply on_refl|].
  destruct (negb _); [intros X; injection X as <- <-; apply on_refl|]. destruct (explore_step unit fit hull schmidt dom rd starvation k E step M w (d :: frontier)) as [(M1 & next)|] eqn:ES; [|discriminate]. cbn [bind]. apply step_on in ES.
  destruct next as [w'|]; [|intros X; injection X as <- <-; exact ES]. destruct (create_frontier dom rd k E M1) as [(M2 & frontier')|] eqn:CF; [|discriminate]. cbn [bind]. destruct (frontier_spec dom rd FAIR _ _ _ _ _ CF) as (-> & _).
  destruct (en_goal E w') as [[|]|]; [| |discriminate]; cbn [bind]; [intros X; injection X as <- <-; exact ES|]. intros X. exact (on_trans _ _ _ ES (IH _ _ _ _ _ _ X)).
Qed.
Lemma explore_on k E M w total M' r : explore unit fit hull schmidt dom rd starvation max_failed k E M w total = Ok (M', r) -> rec_on (nm_rec M) (nm_rec M').
Proof.
  unfold explore. destruct (create_frontier dom rd k E M) as [(M1 & frontier)|] eqn:CF; [|discriminate]. cbn [bind]. destruct (frontier_spec dom rd FAIR _ _ _ _ _ CF) as (-> & _). intros X. exact (loop_on _ _ _ _ _ _ _ _ _ _ X).
Qed.

(** ** Plans *)
Lemma train_rec M t M' : noam_train_trace unit fit hull schmidt dom M t = Ok M' -> nm_rec M' = nm_rec M.
Proof.
  unfold noam_train_trace, noam_reviews. destruct (fold_res _ t _) as [(L & F)|]; [|discriminate]. cbn [bind with_learners nm_learners nm_failures]. destruct (fold_res _ names (L, F)) as [(L' & F')|]; [|discriminate]. intros [= <-]. reflexivity.
Qed.
Lemma reviews_rec M M' : noam_reviews unit fit hull schmidt dom M = Ok M' -> nm_rec M' = nm_rec M.
Proof. unfold noam_reviews. destruct (fold_res _ names _) as [(L' & F')|]; [|discriminate]. intros [= <-]. reflexivity. Qed.
Lemma used_spec model P svs0 : forall solvers last M M' st n w, last <> st_ok -> tables (nm_failures M) -> Forall (refused model P) svs0 -> use_solvers unit fit hull schmidt dom solvers last model P M = Ok (M', (st, n, w)) ->
  exists t w', match t with
    | None => Forall (refused model P) (svs0 ++ solvers) /\ st = List.last (map (fun sv : solver => fst (sv model P)) solvers) last /\ w' = pr_init P
    | Some t => exists svs sv svs' plan b, svs0 ++ solvers = svs ++ sv :: svs' /\ Forall (refused model P) svs /\ sv model P = (st_ok, plan) /\ plan_run (pr_env P) (pr_init P) plan t w' b /\
      ((st = st_ok /\ en_goal (pr_env P) w' = Ok true) \/ (st = (if b then st_goal_not_achieved else st_not_applicable) /\ en_goal (pr_env P) w' = Ok false))
    end /\ fold_res train (trace_list t) (nm_learners M) = Ok (nm_learners M') /\ tables (nm_failures M') /\ nm_rec M' = nm_rec M /\ w = if is_ok st then None else Some w'.
Proof.
  intros solvers. revert svs0. induction solvers as [|sv solvers IH]; intros svs0 last M M' st n w NL T F0; cbn [use_solvers].
  - intros X. injection X as <- <- <- <-. exists None, (pr_init P). split; [rewrite app_nil_r; split; [exact F0|split; reflexivity]|]. split; [reflexivity|]. split; [exact T|]. split; [reflexivity|]. destruct last; try reflexivity. congruence.
  - destruct (sv model P) as (s & plan) eqn:SV. destruct (is_ok s) eqn:OK.
    + assert (s = st_ok) as -> by (destruct s; try discriminate OK; reflexivity).
      destruct (NoamModel.execute_plan (pr_env P) (pr_init P) plan) as [((t & final) & app)|] eqn:EP; [|discriminate]. cbn [bind]. apply executed_plan in EP. destruct (en_goal (pr_env P) final) as [g|] eqn:G; [|discriminate]. cbn [bind].
      destruct (noam_train_trace unit fit hull schmidt dom M t) as [M1|] eqn:TR; [|discriminate]. cbn [bind]. pose proof (train_rec _ _ _ TR) as RR. apply (trace_grew unit fit hull schmidt dom 0) in TR; [|exact T]. destruct TR as [TR TT _ _ _]. destruct g.
      * intros X. injection X as <- <- <- <-. exists (Some t), final. split; [exists svs0, sv, solvers, plan, app; split; [reflexivity|]; split; [exact F0|]; split; [exact SV|]; split; [exact EP|left; auto]|]. split; [exact TR|]. auto.
      * pose proof (plan_last _ _ _ _ _ _ EP) as PL. destruct (rev t) as [|cp l]; [discriminate|]. intros X. injection X as <- <- <- <-. exists (Some t), final. split; [exists svs0, sv, solvers, plan, app; split; [reflexivity|]; split; [exact F0|]; split; [exact SV|]; split; [exact EP|right; auto]|]. split; [exact TR|].
        split; [exact TT|]. split; [exact RR|]. rewrite PL. destruct app; reflexivity.
    + intros X. assert (NS : s <> st_ok) by (intros ->; discriminate OK).
      destruct (IH (svs0 ++ [sv]) s M M' st n w NS T) as (t & w' & A & R); [apply Forall_app; split; [exact F0|constructor; [unfold refused; rewrite SV; exact NS|constructor]]|exact X|].
      exists t, w'. split; [|exact R]. rewrite <- app_assoc in A. cbn [app] in A. destruct t as [t|]; [exact A|]. destruct A as (A1 & A2 & A3). split; [exact A1|]. split; [|exact A3]. rewrite A2. cbn [map List.last]. rewrite SV. cbn [fst].
      destruct (map (fun sv0 : solver => fst (sv0 model P)) solvers) as [|x xs] eqn:EM; [reflexivity|]. clear. revert x. induction xs as [|y ys IHx]; intros x; [reflexivity|]. cbn in *. apply IHx.
Qed.
Lemma with_spec safe solvers P M M' st n w : tables (nm_failures M) -> solve_with unit fine fit hull schmidt rank svm limit flatten dom safe solvers P M = Ok (M', (st, n, w)) ->
  exists model t w', (if safe then construct_safe_action_model unit fine fit rank flatten dom (nm_learners M) else construct_optimistic_action_model unit fine fit rank svm limit flatten dom (nm_learners M)) = Ok model /\
    attempted solvers model P t st w' /\ fold_res train (trace_list t) (nm_learners M) = Ok (nm_learners M') /\ tables (nm_failures M') /\ nm_rec M' = nm_rec M /\ w = if is_ok st then None else Some w'.
Proof.
  intros T. unfold solve_with. destruct (if safe then _ else _) as [model|]; [|discriminate]. cbn [bind]. intros X. destruct (used_spec model P [] solvers st_no_solution M M' st n w ltac:(discriminate) T (Forall_nil _) X) as (t & w' & A & R).
  exists model, t, w'. split; [reflexivity|]. split; [|exact R]. destruct t; exact A.
Qed.

(** ** The end of a problem *)
Hypothesis PLAIN : Forall plain_name names.
Definition end_of (P : problem) (t : trial) : ending :=
  mk_end (pr_name P) (tr_goal t) (tr_solved t) (status_name (tr_safe_status t)) (status_name (tr_optimistic_status t)) 0%Q false.
Lemma finish_end os M P l goal solved s1 s2 M' : record_inv names (os ++ ops_of P l) (nm_rec M) -> finish max_file M P goal solved s1 s2 = Ok M' ->
  record_inv names ((os ++ ops_of P l) ++ [End world call (mk_end (pr_name P) goal solved s1 s2 0%Q false)]) (nm_rec M') /\ nm_learners M' = nm_learners M /\ nm_failures M' = nm_failures M.
Proof.
  intros V. unfold finish. set (e := mk_end _ _ _ _ _ _ _). destruct (step_end world call c_name max_file names (os ++ ops_of P l) (nm_rec M) e V) as (r1 & E & V1 & _). rewrite E. cbn [bind e_export e]. intros X. injection X as <-. split; [exact V1|]. split; reflexivity.
Qed.
Lemma wander_spec os k P M w safe optimistic M' goal n : NoDup (en_actions (pr_env P)) -> tables (nm_failures M) -> record_inv names (os ++ ops_of P []) (nm_rec M) -> r_traj world call (nm_rec M) = [] ->
  explore_and_finish unit fit hull schmidt dom rd starvation max_failed max_file k P M w max_steps (status_name safe) (status_name optimistic) = Ok (M', (goal, n)) ->
  exists rounds, forall t1 t2, let t := mk_trial t1 t2 rounds goal false safe optimistic in
    wanders max_steps max_failed P w t /\ train (nm_learners M) (map as_component (learned_steps rounds)) = Ok (nm_learners M') /\ tables (nm_failures M') /\
    record_inv names ((os ++ ops_of P (tr_steps t)) ++ [End world call (end_of P t)]) (nm_rec M').
Proof.
  intros ND T V TJ. unfold explore_and_finish. destruct (explore unit fit hull schmidt dom rd starvation max_failed k (pr_env P) M w max_steps) as [(M1 & (g1 & n1))|] eqn:X; [|discriminate]. cbn [bind].
  destruct (explore_did unit fit hull schmidt dom rd starvation max_failed FAIR k (pr_env P) M w max_steps M1 g1 n1 ND T X) as (rs & ws & final & W & D & LW & FL & RES).
  destruct (on_traj _ _ (explore_on _ _ _ _ _ _ _ X)) as (l & RA & RN & RT). pose proof (di_traj _ _ _ _ _ _ _ _ _ _ _ D) as DT. cbn [with_fails nm_rec] in DT. rewrite DT in RT. apply app_inv_head in RT. subst l.
  destruct (noam_reviews unit fit hull schmidt dom M1) as [M2|] eqn:R; [|discriminate]. cbn [bind]. pose proof (reviews_lifts unit fit hull schmidt dom M1 (di_tables _ _ _ _ _ _ _ _ _ _ _ D)) as RL. rewrite R in RL. destruct RL as (RL & T2 & E2).
  apply reviews_rec in R. destruct (record_all_inv names PLAIN _ _ _ _ V RN RA) as (V1 & _).
  assert (OPS : (os ++ ops_of P []) ++ map step_op (all_steps (rs ++ final)) = os ++ ops_of P (all_steps (rs ++ final))) by (unfold ops_of; cbn [map]; rewrite app_nil_r, <- app_assoc; reflexivity). rewrite OPS, <- R in V1.
  destruct (finish max_file M2 P g1 false _ _) as [M3|] eqn:FI; [|discriminate]. intros Y. injection Y as <- <- <-. destruct (finish_end os M2 P _ _ _ _ _ _ V1 FI) as (V3 & L3 & F3).
  assert (FE : nm_fails M1 = failures (all_steps (rs ++ final))) by (rewrite (di_fails _ _ _ _ _ _ _ _ _ _ _ D); reflexivity).
  assert (FC : final = [] \/ exists r, final = [r] /\ dead_end (pr_env P) (last_state w ws) r) by (destruct g1; [left; apply RES|destruct RES as (_ & _ & [(-> & _)|H]); [left; reflexivity|right; exact H]]).
  exists (rs ++ final). intros t1 t2. cbn zeta. split; [|split; [|split; [|exact V3]]].
  - split; [reflexivity|]. exists rs, ws, final. unfold tr_steps. cbn [tr_rounds tr_goal]. split; [reflexivity|]. split; [exact W|]. split; [exact LW|]. rewrite <- FE.
    split. { unfold injective_count in FL. assert (LI : length (injective_actions (pr_env P)) <= length (en_actions (pr_env P))) by (unfold injective_actions; clear; induction (en_actions (pr_env P)) as [|c cs IH]; [reflexivity|]; cbn [filter]; destruct (negb _); cbn [length]; lia). lia. }
    destruct g1; [destruct RES as (-> & _ & RES); split; [reflexivity|exact RES]|]. destruct RES as (_ & FG & RES). split; [exact FG|]. destruct RES as [(-> & OR)|DE]; [left; split; [reflexivity|]|right; exact DE].
    destruct OR as [OR|[OR|OR]]; [left; exact OR|right; left; exact OR|right; right]. intros c I N. assert (J : In c (injective_actions (pr_env P))) by (apply injective_In; split; assumption). unfold injective_count in OR. destruct (injective_actions (pr_env P)); [destruct J|discriminate].
  - rewrite L3. unfold numeric_train_trace. rewrite components_fold.
    + pose proof (di_learn _ _ _ _ _ _ _ _ _ _ _ D) as DL. cbn [with_fails nm_learners] in DL. rewrite DL. cbn [bind]. exact RL.
    + unfold learned_steps. rewrite flat_map_app. apply Forall_app. split; [apply (as_components _ _ _ _ W)|]. destruct FC as [-> |(r & -> & DE)]; [constructor|apply (dead_components _ _ _ DE)].
  - rewrite F3. exact T2.
Qed.

(** ** One problem *)
Variable degree : nat.
Variable solvers : list solver.
Notation learned_by := (numeric_train le unit fit hull schmidt dom degree).
Notation safe_after := (SemiSpec.safe_after le unit fine fit hull schmidt rank flatten dom degree).
Notation optimistic_after := (SemiSpec.optimistic_after le unit fine fit hull schmidt rank svm limit flatten dom degree).
Notation tried := (tried safe_after optimistic_after solvers max_steps max_failed).
Notation all_tried := (all_tried safe_after optimistic_after solvers max_steps max_failed).
Notation trying k P M := (try_to_solve unit fine fit hull schmidt rank svm limit flatten dom rd starvation max_failed max_file k (Some solvers) P M max_steps).
(** The state after a problem, before the trajectory is forgotten. *)
Definition ended (os : list (op world call)) (learned : list (list ncomponent)) (P : problem) (t : trial) (M : noam) : Prop :=
  learned_by (learned ++ tr_lesson t) = Ok (nm_learners M) /\ tables (nm_failures M) /\ record_inv names ((os ++ ops_of P (tr_steps t)) ++ [End world call (end_of P t)]) (nm_rec M).
Lemma solved_end os learned P M t1 t2 s1 s2 M' : learned_by (learned ++ trace_list t1 ++ trace_list t2) = Ok (nm_learners M) -> tables (nm_failures M) -> record_inv names (os ++ ops_of P []) (nm_rec M) ->
  finish max_file M P true true (status_name s1) (status_name s2) = Ok M' -> let t := mk_trial t1 t2 [] true true s1 s2 in by_plan t /\ ended os learned P t M'.
Proof.
  intros L T V FI. cbn zeta. destruct (finish_end os M P [] _ _ _ _ _ V FI) as (V' & L' & F'). split; [repeat split|]. split; [unfold tr_lesson; cbn [tr_safe tr_optimistic tr_solved]; rewrite app_nil_r, L'; exact L|]. split; [rewrite F'; exact T|exact V'].
Qed.
Lemma wandered_end os learned k P M w t1 t2 s1 s2 M' goal n : NoDup (en_actions (pr_env P)) -> learned_by (learned ++ trace_list t1 ++ trace_list t2) = Ok (nm_learners M) -> tables (nm_failures M) -> record_inv names (os ++ ops_of P []) (nm_rec M) -> r_traj world call (nm_rec M) = [] ->
  explore_and_finish unit fit hull schmidt dom rd starvation max_failed max_file k P M w max_steps (status_name s1) (status_name s2) = Ok (M', (goal, n)) ->
  exists rounds, let t := mk_trial t1 t2 rounds goal false s1 s2 in wanders max_steps max_failed P w t /\ ended os learned P t M'.
Proof.
  intros ND L T V TJ X. destruct (wander_spec os k P M w s1 s2 M' goal n ND T V TJ X) as (rounds & H). exists rounds. destruct (H t1 t2) as (W & TR & T' & V'). split; [exact W|]. split; [|split; assumption].
  unfold tr_lesson. cbn [tr_safe tr_optimistic tr_solved tr_rounds]. rewrite !app_assoc. apply (learned_app le unit fit hull schmidt dom degree) with (L := nm_learners M); [rewrite <- app_assoc; exact L|]. cbn [fold_res]. rewrite TR. reflexivity.
Qed.
Lemma trying_spec os learned k P M M' goal n : NoDup (en_actions (pr_env P)) -> learned_by learned = Ok (nm_learners M) -> tables (nm_failures M) -> record_inv names (os ++ ops_of P []) (nm_rec M) -> r_traj world call (nm_rec M) = [] ->
  trying k P M = Ok (M', (goal, n)) -> exists t, tr_goal t = goal /\ tried k learned P t /\ ended os learned P t M'.
Proof.
  intros ND L T V TJ. unfold try_to_solve.
  assert (SAFE : tries_safe k = true -> (let* (M1, (st, len, _)) := solve_with unit fine fit hull schmidt rank svm limit flatten dom true solvers P M in
      match st with
      | st_ok => let* M2 := finish max_file M1 P true true (status_name st) (status_name st_irrelevant) in Ok (M2, (true, len))
      | st_not_applicable => Err ValueError
      | _ => exploration_policy unit fine fit hull schmidt rank svm limit flatten dom rd starvation max_failed max_file k solvers P M1 max_steps st
      end) = Ok (M', (goal, n)) -> exists t, tr_goal t = goal /\ tried k learned P t /\ ended os learned P t M').
  { intros TS. destruct (solve_with unit fine fit hull schmidt rank svm limit flatten dom true solvers P M) as [(M1 & ((st & len) & lw))|] eqn:SW; [|discriminate]. cbn [bind].
    destruct (with_spec _ _ _ _ _ _ _ _ T SW) as (m1 & t1 & w1 & CM & A & TR & T1 & R1 & _). cbn iota in CM. assert (L1 := learned_app le unit fit hull schmidt dom degree _ _ _ _ L TR). rewrite <- R1 in V, TJ. clear SW.
    assert (POL : st <> st_ok -> st <> st_not_applicable -> exploration_policy unit fine fit hull schmidt rank svm limit flatten dom rd starvation max_failed max_file k solvers P M1 max_steps st = Ok (M', (goal, n)) -> exists t, tr_goal t = goal /\ tried k learned P t /\ ended os learned P t M').
    { intros N1 N2. unfold exploration_policy.
      assert (NEXT : tries_optimistic_next k = true -> (let* (M2, (st', len', last)) := solve_with unit fine fit hull schmidt rank svm limit flatten dom false solvers P M1 in
          if is_ok st' then let* M3 := finish max_file M2 P true true (status_name st) (status_name st') in Ok (M3, (true, len'))
          else match last with Some w => explore_and_finish unit fit hull schmidt dom rd starvation max_failed max_file k P M2 w max_steps (status_name st) (status_name st') | None => Err AttributeError end) = Ok (M', (goal, n)) ->
          exists t, tr_goal t = goal /\ tried k learned P t /\ ended os learned P t M').
      { intros TN. destruct (solve_with unit fine fit hull schmidt rank svm limit flatten dom false solvers P M1) as [(M2 & ((st' & len') & lw'))|] eqn:SW; [|discriminate]. cbn [bind].
        destruct (with_spec _ _ _ _ _ _ _ _ T1 SW) as (m2 & t2 & w2 & CM2 & A2 & TR2 & T2 & R2 & LW). cbn iota in CM2. assert (L2 := learned_app le unit fit hull schmidt dom degree _ _ _ _ L1 TR2). rewrite <- app_assoc in L2. rewrite <- R2 in V, TJ. clear SW.
        destruct (is_ok st') eqn:OK.
        - apply is_ok_true in OK. subst st'. destruct (finish max_file M2 P true true _ _) as [M3|] eqn:FI; [|discriminate]. cbn [bind]. intros X. injection X as <- <- <-. destruct (solved_end os learned P M2 t1 t2 st st_ok M3 L2 T2 V FI) as (B & E). eexists. split; [|split; [|exact E]]; [reflexivity|].
          unfold PilSpec.tried. rewrite TS, TN. exists m1, w1. split; [exists (nm_learners M); split; assumption|]. split; [exact A|]. right. split; [exact N1|]. split; [exact N2|]. exists m2, w2. split; [exists (nm_learners M1); split; assumption|]. split; [exact A2|]. left. split; [reflexivity|exact B].
        - rewrite LW. intros X. destruct (wandered_end os learned k P M2 w2 t1 t2 st st' M' goal n ND L2 T2 V TJ X) as (rounds & W & E). eexists. split; [|split; [|exact E]]; [reflexivity|].
          unfold PilSpec.tried. rewrite TS, TN. exists m1, w1. split; [exists (nm_learners M); split; assumption|]. split; [exact A|]. right. split; [exact N1|]. split; [exact N2|]. exists m2, w2. split; [exists (nm_learners M1); split; assumption|]. split; [exact A2|]. right. split; [apply is_ok_false; exact OK|exact W]. }
      destruct k; try discriminate TS; try (apply NEXT; reflexivity). intros X. assert (L1' : learned_by (learned ++ trace_list t1 ++ trace_list None) = Ok (nm_learners M1)) by (cbn [trace_list]; rewrite app_nil_r; exact L1).
      destruct (wandered_end os learned informative_explorer P M1 (pr_init P) t1 None st st_irrelevant M' goal n ND L1' T1 V TJ X) as (rounds & W & E). eexists. split; [|split; [|exact E]]; [reflexivity|].
      unfold PilSpec.tried. cbn [tries_safe tries_optimistic_next]. exists m1, w1. split; [exists (nm_learners M); split; assumption|]. split; [exact A|]. right. split; [exact N1|]. split; [exact N2|]. split; [reflexivity|]. split; [reflexivity|exact W]. }
    destruct st; try (apply POL; discriminate); [|discriminate]. destruct (finish max_file M1 P true true _ _) as [M2|] eqn:FI; [|discriminate]. cbn [bind]. intros X. injection X as <- <- <-.
    assert (L1' : learned_by (learned ++ trace_list t1 ++ trace_list None) = Ok (nm_learners M1)) by (cbn [trace_list]; rewrite app_nil_r; exact L1).
    destruct (solved_end os learned P M1 t1 None st_ok st_irrelevant M2 L1' T1 V FI) as (B & E). eexists. split; [|split; [|exact E]]; [reflexivity|].
    unfold PilSpec.tried. rewrite TS. exists m1, w1. split; [exists (nm_learners M); split; assumption|]. split; [exact A|]. left. split; [reflexivity|]. split; [reflexivity|]. split; [reflexivity|exact B]. }
  assert (OPT : tries_safe k = false -> (let* (M1, (st, len, _)) := solve_with unit fine fit hull schmidt rank svm limit flatten dom false solvers P M in
      if is_ok st then let* M2 := finish max_file M1 P true true (status_name st_irrelevant) (status_name st) in Ok (M2, (true, len))
      else explore_and_finish unit fit hull schmidt dom rd starvation max_failed max_file k P M1 (pr_init P) max_steps (status_name st_no_solution) (status_name st)) = Ok (M', (goal, n)) -> exists t, tr_goal t = goal /\ tried k learned P t /\ ended os learned P t M').
  { intros TS. destruct (solve_with unit fine fit hull schmidt rank svm limit flatten dom false solvers P M) as [(M1 & ((st & len) & lw))|] eqn:SW; [|discriminate]. cbn [bind].
    destruct (with_spec _ _ _ _ _ _ _ _ T SW) as (m1 & t1 & w1 & CM & A & TR & T1 & R1 & _). cbn iota in CM. assert (L1 := learned_app le unit fit hull schmidt dom degree _ _ _ _ L TR). rewrite <- R1 in V, TJ. clear SW.
    assert (L1' : learned_by (learned ++ trace_list None ++ trace_list t1) = Ok (nm_learners M1)) by exact L1. destruct (is_ok st) eqn:OK.
    - apply is_ok_true in OK. subst st. destruct (finish max_file M1 P true true _ _) as [M2|] eqn:FI; [|discriminate]. cbn [bind]. intros X. injection X as <- <- <-. destruct (solved_end os learned P M1 None t1 st_irrelevant st_ok M2 L1' T1 V FI) as (B & E). eexists. split; [|split; [|exact E]]; [reflexivity|].
      unfold PilSpec.tried. rewrite TS. split; [reflexivity|]. exists m1, w1. split; [exists (nm_learners M); split; assumption|]. split; [exact A|]. left. split; [reflexivity|]. split; [reflexivity|exact B].
    - intros X. destruct (wandered_end os learned k P M1 (pr_init P) None t1 st_no_solution st M' goal n ND L1' T1 V TJ X) as (rounds & W & E). eexists. split; [|split; [|exact E]]; [reflexivity|].
      unfold PilSpec.tried. rewrite TS. split; [reflexivity|]. exists m1, w1. split; [exists (nm_learners M); split; assumption|]. split; [exact A|]. right. split; [apply is_ok_false; exact OK|]. split; [reflexivity|exact W]. }
  destruct k; first [apply SAFE; reflexivity|apply OPT; reflexivity].
Qed.
End Proofs.
