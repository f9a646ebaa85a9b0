(** * The run of an exploration *)
From Verif Require Import NoamSpec NoamLearn EpisodeProofs OnumTrain UcProofs CondFinal VocabProofs Prelude PreludeProofs.
From Coq Require Import Lia.
Open Scope string_scope. Open Scope list_scope. Open Scope nat_scope.

Section Run.
Variable le : text -> text -> bool.
Variable unit : positive.
Variable fit : list (list Q) -> list Q -> list Q * Q * bool.
Variable hull : list (list Q) -> option (list (list Q) * list Q).
Variable schmidt : list (list Q) -> list (list Q) -> list (list Q).
Variable dom : domain.
Variable rd : random.
Variables starvation max_failed : nat.
Notation tables := (NoamLearn.tables dom).
Notation learn := (numeric_train_transition unit fit hull schmidt dom).

(** What happened between two states of the learner: the executions in order, those that were learned from, and the marks. *)
Definition bounded (b : nat) (M : noam) : Prop := forall n k, dict_get (nm_last M) n = Some k -> k <= b.
Definition info_keys (M : noam) : list string := dict_keys (r_info world call (nm_rec M)).
Record did (b : nat) (M M' : noam) (all learned : list episode_step) (marks : nat) : Prop :=
  { di_traj : r_traj world call (nm_rec M') = r_traj world call (nm_rec M) ++ all;
    di_learn : fold_res learn (map as_component learned) (nm_learners M) = Ok (nm_learners M');
    di_tables : tables (nm_failures M');
    di_fails : nm_fails M' = nm_fails M + failures all;
    di_marks : nm_global M' = nm_global M + marks;
    di_bound : bounded b M -> bounded b M';
    di_keys : info_keys M' = info_keys M }.
Lemma failures_app l l' : failures (l ++ l') = failures l + failures l'.
Proof. unfold failures. rewrite filter_app, app_length. reflexivity. Qed.
Lemma did_refl b M : tables (nm_failures M) -> did b M M [] [] 0.
Proof. intros T. constructor; cbn; try tauto; try (rewrite app_nil_r; reflexivity); try reflexivity; unfold failures; cbn; lia. Qed.
Lemma did_trans b M1 M2 M3 all1 all2 learned1 learned2 m1 m2 : did b M1 M2 all1 learned1 m1 -> did b M2 M3 all2 learned2 m2 -> did b M1 M3 (all1 ++ all2) (learned1 ++ learned2) (m1 + m2).
Proof.
  intros [A1 A2 A3 A4 A5 A6 A7] [B1 B2 B3 B4 B5 B6 B7]. constructor.
  - rewrite B1, A1, app_assoc. reflexivity.
  - rewrite map_app, fold_res_app, A2. cbn [bind]. exact B2.
  - exact B3.
  - rewrite failures_app. lia.
  - lia.
  - tauto.
  - congruence.
Qed.
Lemma mark_did b M c k : tables (nm_failures M) -> k <= b -> did b M (mark M c k) [] [] 1.
Proof.
  intros T K. constructor; cbn; try (rewrite app_nil_r; reflexivity); try reflexivity; [exact T|unfold failures; cbn; lia|].
  intros B n j. cbn [mark nm_last]. rewrite dict_get_set. destruct (eq_dec n (c_name c)); [intros [= <-]; exact K|apply B].
Qed.
Lemma drawn_did b M : tables (nm_failures M) -> did b M (drawn M) [] [] 0.
Proof. intros T. constructor; cbn; try (rewrite app_nil_r; reflexivity); try reflexivity; [exact T|unfold failures; cbn; lia|lia|]. intros B n j. apply B. Qed.

Definition step_of (w : world) (c : call) (w' : world) (ok : bool) : episode_step := EpisodeModel.mk_step world call w c w' ok.
Lemma observe_real E w c w' ok : NoamModel.observe E w c = Ok (w', ok) -> real_outcome E w c w' ok.
Proof.
  unfold NoamModel.observe, real_outcome. destruct (memb (c_name c) (en_names E)) eqn:MB; [|discriminate]. apply memb_In in MB. cbn [negb]. destruct (en_apply E c w) as [w1|e] eqn:A.
  - intros [= <- <-]. split; [exact MB|reflexivity].
  - destruct e; try discriminate. intros [= <- <-]. split; [exact MB|split; reflexivity].
Qed.
Lemma record_traj r c ok w w' r' : record_single_step world call c_name r c ok w w' = Ok r' -> r_traj world call r' = r_traj world call r ++ [step_of w c w' ok].
Proof.
  unfold record_single_step. destruct ok.
  - destruct (plus_one _ _) as [i|]; [|discriminate]. cbn [bind]. destruct (plus_one i _) as [i'|]; [|discriminate]. cbn [bind]. destruct (plus_one (r_history world call r) _) as [h|]; [|discriminate]. intros [= <-]. reflexivity.
  - destruct (plus_one _ _) as [i|]; [|discriminate]. cbn [bind]. destruct (plus_one i _) as [i'|]; [|discriminate]. intros [= <-]. reflexivity.
Qed.
Lemma record_keys r c ok w w' r' : record_single_step world call c_name r c ok w w' = Ok r' -> dict_keys (r_info world call r') = dict_keys (r_info world call r).
Proof.
  unfold record_single_step. destruct ok.
  - destruct (plus_one _ _) as [i|] eqn:P1; [|discriminate]. cbn [bind]. destruct (plus_one i _) as [i'|] eqn:P2; [|discriminate]. cbn [bind]. destruct (plus_one (r_history world call r) _) as [h|]; [|discriminate]. intros [= <-]. apply plus_one_get in P1, P2. destruct P1 as (P1 & _), P2 as (P2 & _). etransitivity; [exact P2|exact P1].
  - destruct (plus_one _ _) as [i|] eqn:P1; [|discriminate]. cbn [bind]. destruct (plus_one i _) as [i'|] eqn:P2; [|discriminate]. intros [= <-]. apply plus_one_get in P1, P2. destruct P1 as (P1 & _), P2 as (P2 & _). etransitivity; [exact P2|exact P1].
Qed.
Lemma execute_did b E M c w integrate M' w' ok : tables (nm_failures M) -> execute_selected unit fit hull schmidt dom E M c w integrate = Ok (M', (w', ok)) ->
  real_outcome E w c w' ok /\ did b M M' [step_of w c w' ok] (if integrate then [step_of w c w' ok] else []) 0.
Proof.
  intros T. unfold execute_selected. destruct (NoamModel.observe E w c) as [(w1 & ok1)|] eqn:O; [|discriminate]. cbn [bind]. apply observe_real in O. destruct (triplet_snapshot dom (fst w) (fst w1) c) as [?|]; [|discriminate]. cbn [bind].
  destruct (record_single_step world call c_name (nm_rec M) c ok1 w w1) as [r|] eqn:R; [|discriminate]. cbn [bind]. pose proof (record_keys _ _ _ _ _ _ R) as RK. apply record_traj in R.
  assert (FA : forall k, k + (if ok1 then 0 else 1) = k + failures [step_of w c w1 ok1]) by (intros k; unfold failures, step_of; cbn; destruct ok1; cbn; lia).
  destruct integrate.
  - cbn [with_rec nm_learners nm_failures]. pose proof (transition_lifts unit fit hull schmidt dom (nm_learners M) (nm_failures M) (transition w c w1 ok1) T) as LT. unfold lifts in LT.
    destruct (noam_transition unit fit hull schmidt dom (nm_learners M) (nm_failures M) (transition w c w1 ok1)) as [(L & F)|]; [|discriminate]. cbn [bind]. destruct LT as (LT & TF). intros X. injection X as <- <- <-. split; [exact O|].
    constructor; [destruct ok1; exact R| |destruct ok1; exact TF| | |destruct ok1; intros B; exact B|destruct ok1; exact RK].
    + cbn [map fold_res]. change (as_component (step_of w c w1 ok1)) with (transition w c w1 ok1). rewrite LT. destruct ok1; reflexivity.
    + rewrite <- FA. destruct ok1; cbn; lia.
    + destruct ok1; cbn; lia.
  - cbn [bind]. intros X. injection X as <- <- <-. split; [exact O|]. constructor; [destruct ok1; exact R|destruct ok1; reflexivity|destruct ok1; exact T| |destruct ok1; cbn; lia|destruct ok1; intros B; exact B|destruct ok1; exact RK].
    rewrite <- FA. destruct ok1; cbn; lia.
Qed.

(** ** Selection *)
Lemma remove_first_length c l : In c l -> length (remove_first c l) < length l.
Proof.
  induction l as [|x l IH]; intros I; [destruct I|]. cbn [remove_first]. destruct (eq_dec x c); [cbn; lia|]. destruct I as [I|I]; [congruence|]. cbn. specialize (IH I). lia.
Qed.
Lemma remove_first_incl c l : incl (remove_first c l) l.
Proof. induction l as [|x l IH]; [intros y []|]. cbn [remove_first]. destruct (eq_dec x c); intros y Y; [right; exact Y|]. destruct Y as [Y|Y]; [left; exact Y|right; apply IH; exact Y]. Qed.
Lemma pop_spec M w : forall rest c c' rest', pop_informative unit fit hull schmidt dom M w c rest = Ok (c', rest') ->
  exists skipped, c :: rest = skipped ++ c' :: rest' /\ Forall (fun x => is_informative unit fit hull schmidt dom M w x = Ok false) skipped /\
    (is_informative unit fit hull schmidt dom M w c' = Ok true \/ (rest' = [] /\ exists i, is_informative unit fit hull schmidt dom M w c' = Ok i)).
Proof.
  induction rest as [|d rest IH]; intros c c' rest'; cbn [pop_informative].
  - destruct (is_informative unit fit hull schmidt dom M w c) as [i|] eqn:I; [|discriminate]. intros [= <- <-]. exists []. split; [reflexivity|]. split; [constructor|]. right. split; [reflexivity|exists i; exact I].
  - destruct (is_informative unit fit hull schmidt dom M w c) as [[|]|] eqn:I; [| |discriminate]; cbn [bind].
    + intros [= <- <-]. exists []. split; [reflexivity|]. split; [constructor|]. left. exact I.
    + intros X. destruct (IH _ _ _ X) as (sk & E & F & R). exists (c :: sk). rewrite E. split; [reflexivity|]. split; [constructor; assumption|exact R].
Qed.
Lemma starved_In M frontier n : In n (starved_names starvation M frontier) -> is_starved starvation M n = true /\ exists c, In c frontier /\ c_name c = n.
Proof. unfold starved_names. intros I. apply filter_In in I. destruct I as (I & S0). rewrite to_set_In in I. apply in_map_iff in I. destruct I as (c & E & C). split; [exact S0|exists c; split; assumption]. Qed.
Lemma choose_spec M w frontier M1 c rest : choose unit fit hull schmidt dom rd starvation M w frontier = Ok (M1, c, rest) ->
  In c frontier /\ length rest < length frontier /\ incl rest frontier /\ (M1 = M \/ M1 = drawn M).
Proof.
  unfold choose. destruct (starved_names starvation M frontier) as [|n ns].
  - destruct frontier as [|d frontier]; [discriminate|]. destruct (pop_informative unit fit hull schmidt dom M w d frontier) as [(c' & rest')|] eqn:P; [|discriminate]. intros [= <- <- <-]. destruct (pop_spec _ _ _ _ _ _ P) as (sk & E & _).
    rewrite E. split; [apply in_or_app; right; left; reflexivity|]. split; [rewrite app_length; cbn; lia|]. split; [intros y Y; apply in_or_app; right; right; exact Y|left; reflexivity].
  - destruct (nth_error _ _) as [d|] eqn:N; [|discriminate]. intros [= <- <- <-]. apply nth_error_In in N. apply filter_In in N. destruct N as (N & _). split; [exact N|]. split; [apply remove_first_length; exact N|]. split; [apply remove_first_incl|right; reflexivity].
Qed.
Lemma select_did b k E M w frontier M' c ok w' rest : tables (nm_failures M) -> select unit fit hull schmidt dom rd starvation k E M w frontier = Ok (M', (c, ok, w'), rest) ->
  In c frontier /\ length rest < length frontier /\ incl rest frontier /\ real_outcome E w c w' ok /\ did b M M' [step_of w c w' ok] [step_of w c w' ok] 0.
Proof.
  intros T. unfold select. match goal with |- bind ?ch _ = _ -> _ => assert (CH : forall M1 c0 r0, ch = Ok (M1, c0, r0) -> In c0 frontier /\ length r0 < length frontier /\ incl r0 frontier /\ (M1 = M \/ M1 = drawn M)) end.
  { intros M1 c0 r0. destruct k; try (apply choose_spec); destruct frontier as [|d frontier]; try discriminate; intros [= <- <- <-]; (split; [left; reflexivity|]); (split; [cbn; lia|]); (split; [intros y Y; right; exact Y|left; reflexivity]). }
  destruct (match k with noam_learner | informative_svm => _ | _ => _ end) as [((M1 & c0) & r0)|]; [|discriminate]. cbn [bind]. destruct (CH _ _ _ eq_refl) as (I & LN & IN & EM). clear CH.
  assert (T1 : tables (nm_failures M1)) by (destruct EM as [-> | ->]; exact T). destruct (execute_selected unit fit hull schmidt dom E M1 c0 w true) as [(M2 & (w2 & ok2))|] eqn:X; [|discriminate]. cbn [bind]. intros Y. injection Y as <- <- <- <- <-.
  destruct (execute_did b E M1 c0 w true M2 w2 ok2 T1 X) as (O & D). split; [exact I|]. split; [exact LN|]. split; [exact IN|]. split; [exact O|]. destruct EM as [-> | ->]; [exact D|].
  exact (did_trans b _ _ _ [] _ [] _ 0 0 (drawn_did b M T) D).
Qed.

(** ** One step *)
Definition allowed (E : environment) (l : list call) : Prop := forall c, In c l -> In c (en_actions E) /\ NoDup (c_params c).
Definition failed (s : episode_step) : Prop := es_ok s = false.
Lemma attempt_of E w c w' ok l : allowed E l -> In c l -> real_outcome E w c w' ok -> attempt_at E w (step_of w c w' ok).
Proof. intros A I O. split; [reflexivity|]. split; [exact O|]. apply A. exact I. Qed.
Lemma retry_did b k E step : step <= b -> forall fuel M w c ok w' frontier M' c' ok' w'', tables (nm_failures M) -> allowed E frontier ->
  retry unit fit hull schmidt dom rd starvation fuel k E step M w (c, ok, w') frontier = Ok (M', (c', ok', w'')) ->
  exists more before, did b M M' more more (length more) /\ Forall (attempt_at E w) more /\ length more <= length frontier /\
    step_of w c w' ok :: more = before ++ [step_of w c' w'' ok'] /\ Forall failed before.
Proof.
  intros SB. induction fuel as [|fuel IH]; intros M w c ok w' frontier M' c' ok' w'' T A.
  - cbn [retry]. destruct ok; [|destruct frontier; [|discriminate]]; intros X; injection X as <- <- <- <-; exists [], []; (split; [apply did_refl; exact T|]); (split; [constructor|]); (split; [cbn; lia|]); (split; [reflexivity|constructor]).
  - cbn [retry]. destruct ok; [intros X; injection X as <- <- <- <-; exists [], []; (split; [apply did_refl; exact T|]); (split; [constructor|]); (split; [cbn; lia|]); (split; [reflexivity|constructor])|].
    destruct frontier as [|d frontier]; [intros X; injection X as <- <- <- <-; exists [], []; (split; [apply did_refl; exact T|]); (split; [constructor|]); (split; [cbn; lia|]); (split; [reflexivity|constructor])|].
    destruct (select unit fit hull schmidt dom rd starvation k E M w (d :: frontier)) as [((M1 & ((c1 & ok1) & w1)) & rest)|] eqn:S1; [|discriminate]. cbn [bind fst]. intros X.
    destruct (select_did b _ _ _ _ _ _ _ _ _ _ T S1) as (I & LN & IN & O & D).
    destruct (IH (mark M1 c1 step) w c1 ok1 w1 rest M' c' ok' w'' (di_tables _ _ _ _ _ _ D) (fun y Y => A y (IN y Y)) X) as (more & before & D' & F & LE & EQ & FB).
    exists (step_of w c1 w1 ok1 :: more), (step_of w c w' false :: before).
    split; [refine (did_trans b _ _ _ [_] more [_] more 1 (length more) _ D'); exact (did_trans b _ _ _ [_] [] [_] [] 0 1 D (mark_did b M1 c1 step (di_tables _ _ _ _ _ _ D) SB))|].
    split; [constructor; [eapply attempt_of; eassumption|exact F]|]. split; [cbn in *; lia|]. split; [cbn; f_equal; exact EQ|constructor; [reflexivity|exact FB]].
Qed.
(** More fuel changes nothing. *)
Lemma retry_fuel k E step : forall fuel extra M w r frontier, length frontier <= fuel -> tables (nm_failures M) ->
  retry unit fit hull schmidt dom rd starvation (fuel + extra) k E step M w r frontier = retry unit fit hull schmidt dom rd starvation fuel k E step M w r frontier.
Proof.
  induction fuel as [|fuel IH]; intros extra M w ((c & ok) & w') frontier LE T.
  - destruct frontier; [|cbn in LE; lia]. destruct extra; cbn; destruct ok; reflexivity.
  - cbn [retry Nat.add]. destruct ok; [reflexivity|]. destruct frontier as [|d frontier]; [reflexivity|]. destruct (select unit fit hull schmidt dom rd starvation k E M w (d :: frontier)) as [((M1 & ((c1 & ok1) & w1)) & rest)|] eqn:S1; [|reflexivity]. cbn [bind].
    destruct (select_did 0 _ _ _ _ _ _ _ _ _ _ T S1) as (_ & LN & _ & _ & D). apply IH; [cbn in *; lia|]. exact (di_tables _ _ _ _ _ _ D).
Qed.
Lemma base_did b E : forall frontier M w M' c ok w', tables (nm_failures M) -> allowed E frontier -> base_select unit fit hull schmidt dom E M w frontier = Ok (M', (c, ok, w')) ->
  exists before, did b M M' (before ++ [step_of w c w' ok]) [] 0 /\ Forall (attempt_at E w) (before ++ [step_of w c w' ok]) /\ Forall failed before /\ length before < length frontier /\
    (ok = false -> map es_call (before ++ [step_of w c w' ok]) = frontier).
Proof.
  induction frontier as [|d frontier IH]; intros M w M' c ok w' T A; [discriminate|]. cbn [base_select]. destruct (execute_selected unit fit hull schmidt dom E M d w false) as [(M1 & (w1 & ok1))|] eqn:X; [|discriminate]. cbn [bind].
  destruct (execute_did b E M d w false M1 w1 ok1 T X) as (O & D). pose proof (attempt_of E w d w1 ok1 (d :: frontier) A (or_introl eq_refl) O) as AT.
  assert (HERE : forall rest, frontier = rest -> (ok1 = true \/ rest = []) -> Ok (M1, (d, ok1, w1)) = Ok (M', (c, ok, w')) -> exists before, did b M M' (before ++ [step_of w c w' ok]) [] 0 /\ Forall (attempt_at E w) (before ++ [step_of w c w' ok]) /\ Forall failed before /\ length before < length (d :: frontier) /\
    (ok = false -> map es_call (before ++ [step_of w c w' ok]) = d :: frontier)).
  { intros rest <- OR Y. injection Y as <- <- <- <-. exists []. split; [exact D|]. split; [constructor; [exact AT|constructor]|]. split; [constructor|]. split; [cbn; lia|]. intros Z. destruct OR as [OR| ->]; [congruence|reflexivity]. }
  destruct ok1; [eapply HERE; [reflexivity|left; reflexivity]|]. destruct frontier as [|d' frontier]; [eapply HERE; [reflexivity|right; reflexivity]|]. clear HERE. intros Y.
  destruct (IH M1 w M' c ok w' (di_tables _ _ _ _ _ _ D) (fun y Z => A y (or_intror Z)) Y) as (before & D' & F & FB & LE & AL). exists (step_of w d w1 false :: before).
  split; [exact (did_trans b _ _ _ [_] _ [] [] 0 0 D D')|]. split; [constructor; [exact AT|exact F]|]. split; [constructor; [reflexivity|exact FB]|]. split; [cbn in *; lia|]. intros Z. specialize (AL Z). cbn [app map] in *. f_equal. exact AL.
Qed.

(** ** Frontiers *)
Hypothesis FAIR : fair rd.
Lemma injective_In E c : In c (injective_actions E) <-> In c (en_actions E) /\ NoDup (c_params c).
Proof. unfold injective_actions. rewrite filter_In, negb_true_iff, contains_duplicates_spec. reflexivity. Qed.
Lemma frontier_spec k E M M' l : create_frontier dom rd k E M = Ok (M', l) -> M' = drawn M /\ allowed E l /\ length l = length (injective_actions E) /\ (NoDup (en_actions E) -> Permutation l (injective_actions E)).
Proof.
  assert (SH : forall i, let l := rd_shuffle rd i (injective_actions E) in allowed E l /\ length l = length (injective_actions E) /\ (NoDup (en_actions E) -> Permutation l (injective_actions E))).
  { intros i l0. pose proof (fa_shuffle rd FAIR i (injective_actions E)) as P. split; [intros c I; apply injective_In; eapply Permutation_in; eassumption|]. split; [apply Permutation_length; exact P|intros _; exact P]. }
  assert (CH : sort_by_success dom rd E M = Ok (M', l) -> M' = drawn M /\ allowed E l /\ length l = length (injective_actions E) /\ (NoDup (en_actions E) -> Permutation l (injective_actions E))).
  { unfold sort_by_success. destruct (map_res _ (dict_keys (d_actions dom))) as [rates|]; [|discriminate]. cbn [bind]. match goal with |- context [flat_map ?f (to_set (injective_actions E))] => set (weighted := flat_map f (to_set (injective_actions E))) end.
    destruct (rd_choice rd _ _ _ _) as [l0|] eqn:RC; [|discriminate]. intros [= <- <-]. split; [reflexivity|]. destruct (fa_choice rd FAIR _ _ _ _ _ RC) as (LN & rest & P).
    assert (WI : forall c, In c (map fst weighted) -> In c (injective_actions E)).
    { intros c I. apply in_map_iff in I. destruct I as ((c0 & q) & <- & I). unfold weighted in I. apply in_flat_map in I. destruct I as (d & D & I). rewrite to_set_In in D. destruct (dict_get rates (c_name d)); [destruct I as [I|[]]; injection I as <- _; exact D|destruct I]. }
    assert (LI : incl l0 (injective_actions E)) by (intros c I; apply WI; eapply Permutation_in; [exact P|apply in_or_app; left; exact I]).
    split; [intros c I; apply injective_In; apply LI; exact I|]. split; [exact LN|]. intros ND. assert (NI : NoDup (injective_actions E)) by (apply NoDup_filter; exact ND).
    assert (NW : NoDup (map fst weighted)).
    { unfold weighted. pose proof (to_set_NoDup (injective_actions E)) as NS. revert NS. generalize (to_set (injective_actions E)). induction l as [|d l IH]; intros NS; [constructor|]. inversion NS as [|? ? N1 N2]; subst. cbn [flat_map]. rewrite map_app.
      destruct (dict_get rates (c_name d)); [|exact (IH N2)]. cbn [map app fst]. constructor; [|exact (IH N2)]. intros I. apply N1. apply in_map_iff in I. destruct I as ((c0 & q0) & E0 & I). cbn [fst] in E0. subst c0. apply in_flat_map in I. destruct I as (d' & D' & I).
      destruct (dict_get rates (c_name d')); [destruct I as [I|[]]; injection I as <- _; exact D'|destruct I]. }
    assert (N0 : NoDup l0) by (apply Permutation_sym in P; apply (Permutation_NoDup P) in NW; apply NoDup_app_iff in NW; apply NW).
    apply NoDup_Permutation_bis; [exact N0|rewrite LN; lia|exact LI]. }
  unfold create_frontier. destruct k; try exact CH; intros [= <- <-]; (split; [reflexivity|apply SH]).
Qed.

(** ** A round *)
Definition injective_count (E : environment) : nat := length (injective_actions E).
Lemma failures_le l : failures l <= length l.
Proof. unfold failures. induction l as [|x l IH]; [cbn; lia|]. cbn [filter]. destruct (negb (es_ok x)); cbn; lia. Qed.
Definition round_marks (r : round) : nat := length (rn_tried r) + match rn_fallback r with [] => 0 | _ => 1 end.
Lemma step_did b k E step M w frontier M' next : step <= b -> tables (nm_failures M) -> allowed E frontier -> length frontier <= injective_count E -> NoDup (en_actions E) ->
  explore_step unit fit hull schmidt dom rd starvation k E step M w frontier = Ok (M', next) ->
  exists r, did b M M' (round_steps r) (rn_tried r) (round_marks r) /\ length (round_steps r) <= 2 * injective_count E /\
    match next with Some w' => moves E w r w' | None => dead_end E w r end.
Proof.
  intros SB T A LF ND. unfold explore_step. destruct (select unit fit hull schmidt dom rd starvation k E M w frontier) as [((M1 & ((c1 & ok1) & w1)) & rest)|] eqn:S1; [|discriminate]. cbn [bind fst].
  destruct (select_did b _ _ _ _ _ _ _ _ _ _ T S1) as (I & LN & IN & O & D1). pose proof (did_trans b _ _ _ [_] [] [_] [] 0 1 D1 (mark_did b M1 c1 step (di_tables _ _ _ _ _ _ D1) SB)) as D1'. cbn [app] in D1'.
  destruct (retry unit fit hull schmidt dom rd starvation (length frontier) k E step (mark M1 c1 step) w (c1, ok1, w1) rest) as [(M2 & ((c2 & ok2) & w2))|] eqn:R; [|discriminate]. cbn [bind].
  destruct (retry_did b k E step SB _ (mark M1 c1 step) w c1 ok1 w1 rest _ _ _ _ (di_tables _ _ _ _ _ _ D1) (fun y Y => A y (IN y Y)) R) as (more & before & D2 & F2 & LE2 & EQ & FB).
  pose proof (did_trans b _ _ _ _ _ _ _ _ _ D1' D2) as D12. cbn [app] in D12. set (tried := step_of w c1 w1 ok1 :: more) in *.
  assert (FT : Forall (attempt_at E w) tried) by (constructor; [eapply attempt_of; eassumption|exact F2]). assert (LT : length tried <= injective_count E) by (cbn; lia).
  destruct ok2.
  - intros [= <- <-]. exists (mk_round tried []). unfold round_steps, round_marks. cbn [rn_tried rn_fallback]. rewrite app_nil_r. split; [replace (length tried + 0) with (0 + 1 + length more) by (cbn; lia); exact D12|]. split; [lia|].
    split; [unfold round_steps; cbn [rn_tried rn_fallback]; rewrite app_nil_r; exact FT|]. split; [discriminate|]. exists before, (step_of w c2 w2 true). unfold round_steps. cbn [rn_tried rn_fallback]. rewrite app_nil_r. split; [exact EQ|]. split; [exact FB|split; reflexivity].
  - destruct (create_frontier dom rd k E M2) as [(M3 & frontier')|] eqn:CF; [|discriminate]. cbn [bind]. destruct (frontier_spec _ _ _ _ _ CF) as (-> & A3 & L3 & P3). specialize (P3 ND).
    destruct (base_select unit fit hull schmidt dom E (drawn M2) w frontier') as [(M4 & ((c4 & ok4) & w4))|] eqn:BS; [|discriminate]. cbn [bind].
    destruct (base_did b E _ (drawn M2) _ _ _ _ _ (di_tables _ _ _ _ _ _ D12) A3 BS) as (bf & D4 & F4 & FB4 & LE4 & AL4). set (fallback := bf ++ [step_of w c4 w4 ok4]) in *.
    assert (FF : Forall failed tried). { rewrite EQ. apply Forall_app. split; [exact FB|repeat constructor]. }
    assert (NF : fallback <> []) by (unfold fallback; destruct bf; discriminate). assert (LFB : length fallback <= injective_count E) by (unfold fallback, injective_count in *; rewrite app_length; cbn; lia).
    pose proof (did_trans b _ _ _ _ _ _ _ _ _ D12 (did_trans b _ _ _ [] _ [] _ 0 _ (drawn_did b M2 (di_tables _ _ _ _ _ _ D12)) (did_trans b _ _ _ _ [] _ [] _ 1 D4 (mark_did b M4 c4 step (di_tables _ _ _ _ _ _ D4) SB)))) as DA.
    cbn [app] in DA. rewrite !app_nil_r in DA. assert (DID : did b M (mark M4 c4 step) (tried ++ fallback) tried (length tried + match fallback with [] => 0 | _ => 1 end)).
    { replace (length tried + match fallback with [] => 0 | _ => 1 end) with (0 + 1 + length more + (0 + (0 + 1))) by (destruct fallback; [congruence|cbn; lia]). exact DA. }
    assert (FA : Forall (attempt_at E w) (tried ++ fallback)) by (apply Forall_app; split; assumption).
    destruct ok4; intros [= <- <-]; exists (mk_round tried fallback); unfold round_steps, round_marks; cbn [rn_tried rn_fallback]; (split; [exact DID|]); (split; [rewrite app_length; lia|]).
    + split; [exact FA|]. split; [discriminate|]. exists (tried ++ bf), (step_of w c4 w4 true). unfold round_steps. cbn [rn_tried rn_fallback]. split; [unfold fallback; rewrite app_assoc; reflexivity|]. split; [apply Forall_app; split; assumption|split; reflexivity].
    + split; [exact FA|]. split; [discriminate|]. split; [apply Forall_app; split; [exact FF|]; unfold fallback; apply Forall_app; split; [exact FB4|repeat constructor]|]. cbn [rn_fallback].
      intros c IC NC. rewrite (AL4 eq_refl). eapply Permutation_in; [apply Permutation_sym; exact P3|]. apply injective_In. split; assumption.
Qed.

(** ** The loop *)
Lemma last_more (ws : list world) : forall x w w', last (x :: ws) w = last (x :: ws) w'.
Proof. induction ws as [|y ws IH]; intros x w w'; [reflexivity|]. exact (IH y w w'). Qed.
Lemma last_cons w w' ws : last_state w (w' :: ws) = last_state w' ws.
Proof. unfold last_state. destruct ws as [|x ws]; [reflexivity|]. exact (last_more ws x w w'). Qed.
Definition marks_of (rs : list round) : nat := list_sum (map round_marks rs).
Lemma loop_did b k E total : NoDup (en_actions E) -> forall todo step M w frontier M' goal n, step + todo <= S b -> tables (nm_failures M) -> allowed E frontier -> length frontier = injective_count E ->
  explore_loop unit fit hull schmidt dom rd starvation max_failed todo k E total step M w frontier = Ok (M', (goal, n)) ->
  exists rs ws final, walk E w rs ws /\ did b M M' (all_steps (rs ++ final)) (learned_steps (rs ++ final)) (marks_of (rs ++ final)) /\ length ws <= todo /\
    (nm_fails M' = nm_fails M \/ nm_fails M' < max_failed + 2 * injective_count E) /\
    if goal then final = [] /\ n = step + length ws /\ exists ws' w', ws = ws' ++ [w'] /\ en_goal E w' = Ok true /\ Forall (fun w => en_goal E w = Ok false) ws'
    else n = total /\ Forall (fun w => en_goal E w = Ok false) ws /\
      ((final = [] /\ (length ws = todo \/ max_failed <= nm_fails M' \/ injective_count E = 0)) \/ exists r, final = [r] /\ dead_end E (last_state w ws) r).
Proof.
  intros ND. induction todo as [|todo IH]; intros step M w frontier M' goal n SB T A LF.
  - cbn [explore_loop]. intros X. injection X as <- <- <-. exists [], [], []. split; [constructor|]. split; [apply did_refl; exact T|]. split; [cbn; lia|]. split; [left; reflexivity|]. split; [reflexivity|]. split; [constructor|]. left. split; [reflexivity|left; reflexivity].
  - cbn [explore_loop]. destruct frontier as [|d frontier].
    { intros X. injection X as <- <- <-. exists [], [], []. split; [constructor|]. split; [apply did_refl; exact T|]. split; [cbn; lia|]. split; [left; reflexivity|]. split; [reflexivity|]. split; [constructor|]. left. split; [reflexivity|]. right. right. rewrite <- LF. reflexivity. }
    destruct (nm_fails M <? max_failed) eqn:FL; cbn [negb].
    2: { apply Nat.ltb_ge in FL. intros X. injection X as <- <- <-. exists [], [], []. split; [constructor|]. split; [apply did_refl; exact T|]. split; [cbn; lia|]. split; [left; reflexivity|]. split; [reflexivity|]. split; [constructor|]. left. split; [reflexivity|]. right. left. exact FL. }
    apply Nat.ltb_lt in FL. destruct (explore_step unit fit hull schmidt dom rd starvation k E step M w (d :: frontier)) as [(M1 & next)|] eqn:ES; [|discriminate]. cbn [bind].
    destruct (step_did b k E step M w (d :: frontier) M1 next ltac:(lia) T A ltac:(lia) ND ES) as (r & D & LR & NX). pose proof (failures_le (round_steps r)) as FR. pose proof (di_fails _ _ _ _ _ _ D) as DF.
    assert (ONE : forall M2, did b M1 M2 [] [] 0 -> did b M M2 (all_steps [r]) (learned_steps [r]) (marks_of [r])).
    { intros M2 D2. pose proof (did_trans b _ _ _ _ _ _ _ _ _ D D2) as DD. unfold all_steps, learned_steps, marks_of. cbn [flat_map map list_sum fold_right]. exact DD. }
    destruct next as [w'|].
    2: { intros X. injection X as <- <- <-. exists [], [], [r]. split; [constructor|]. split; [apply (ONE M1), did_refl; exact (di_tables _ _ _ _ _ _ D)|]. split; [cbn; lia|]. split; [right; lia|]. split; [reflexivity|]. split; [constructor|]. right. exists r. split; [reflexivity|exact NX]. }
    destruct (create_frontier dom rd k E M1) as [(M2 & frontier')|] eqn:CF; [|discriminate]. cbn [bind]. destruct (frontier_spec _ _ _ _ _ CF) as (-> & A2 & L2 & _). pose proof (drawn_did b M1 (di_tables _ _ _ _ _ _ D)) as D2.
    destruct (en_goal E w') as [[|]|] eqn:G; [| |discriminate]; cbn [bind].
    + intros X. injection X as <- <- <-. exists [r], [w'], []. split; [econstructor; [exact NX|constructor]|]. split; [apply (ONE _ D2)|]. split; [cbn; lia|]. split; [right; cbn [drawn nm_fails]; lia|]. split; [reflexivity|]. split; [cbn; lia|]. exists [], w'. split; [reflexivity|]. split; [exact G|constructor].
    + intros X. destruct (IH (step + 1) (drawn M1) w' frontier' M' goal n ltac:(lia) (di_tables _ _ _ _ _ _ D2) A2 L2 X) as (rs & ws & final & W & D3 & LW & FL3 & RES). exists (r :: rs), (w' :: ws), final.
      split; [econstructor; eassumption|]. split; [exact (did_trans b _ _ _ _ _ _ _ _ _ D (did_trans b _ _ _ [] _ [] _ 0 _ D2 D3))|]. split; [cbn; lia|]. split; [cbn [drawn nm_fails] in FL3; lia|]. destruct goal.
      * destruct RES as (-> & -> & ws' & w'' & -> & G' & FG). split; [reflexivity|]. split; [cbn [length]; lia|]. exists (w' :: ws'), w''. split; [reflexivity|]. split; [exact G'|constructor; assumption].
      * destruct RES as (-> & FG & RES). split; [reflexivity|]. split; [constructor; assumption|]. assert (LS : last_state w (w' :: ws) = last_state w' ws) by (apply last_cons). rewrite LS.
        destruct RES as [(-> & OR)|DE]; [left; split; [reflexivity|]; cbn [length]; lia|right; exact DE].
Qed.
Lemma explore_did k E M w total M' goal n : NoDup (en_actions E) -> tables (nm_failures M) -> explore unit fit hull schmidt dom rd starvation max_failed k E M w total = Ok (M', (goal, n)) ->
  exists rs ws final, walk E w rs ws /\ did total (with_fails M 0) M' (all_steps (rs ++ final)) (learned_steps (rs ++ final)) (marks_of (rs ++ final)) /\ length ws <= total /\
    nm_fails M' < S (max_failed + 2 * injective_count E) /\
    if goal then final = [] /\ n = length ws /\ exists ws' w', ws = ws' ++ [w'] /\ en_goal E w' = Ok true /\ Forall (fun w => en_goal E w = Ok false) ws'
    else n = total /\ Forall (fun w => en_goal E w = Ok false) ws /\
      ((final = [] /\ (length ws = total \/ max_failed <= nm_fails M' \/ injective_count E = 0)) \/ exists r, final = [r] /\ dead_end E (last_state w ws) r).
Proof.
  intros ND T. unfold explore. destruct (create_frontier dom rd k E M) as [(M1 & frontier)|] eqn:CF; [|discriminate]. cbn [bind]. destruct (frontier_spec _ _ _ _ _ CF) as (-> & A & L & _). intros X.
  destruct (loop_did total k E total ND total 0 (with_fails (drawn M) 0) w frontier M' goal n ltac:(lia) T A L X) as (rs & ws & final & W & D & LW & FL & RES). exists rs, ws, final. split; [exact W|].
  split; [constructor; try apply D; intros B; apply (di_bound _ _ _ _ _ _ D); exact B|]. split; [exact LW|]. split; [cbn [with_fails nm_fails] in FL; lia|exact RES].
Qed.
End Run.
