(** * Semi-online learning: explorations, files and plans *)
From Verif Require Import SemiSpec NoamRun NoamSolve EpisodeProofs TextProofs VocabProofs Prelude PreludeProofs.
From Coq Require Import Lia Ascii.
Open Scope string_scope. Open Scope list_scope. Open Scope nat_scope.
Notation record_inv := (EpisodeProofs.inv world call c_name).

(** ** Names of files *)
Lemma substring_app a : forall b, String.substring 0 (String.length a) (a ++ b)%string = a.
Proof. induction a as [|c a IH]; intros b; [destruct b; reflexivity|]. cbn. rewrite IH. reflexivity. Qed.
Lemma string_length_app a b : String.length (a ++ b) = String.length a + String.length b.
Proof. induction a as [|c a IH]; [reflexivity|]. cbn. rewrite IH. reflexivity. Qed.
Lemma app_assoc_s (a b c : string) : ((a ++ b) ++ c)%string = (a ++ (b ++ c))%string.
Proof. induction a as [|x a IH]; [reflexivity|]. cbn. rewrite IH. reflexivity. Qed.
Lemma app_empty (a : string) : (a ++ "")%string = a.
Proof. induction a as [|c a IH]; [reflexivity|]. cbn. rewrite IH. reflexivity. Qed.
Lemma stem_app a : trajectory_stem (a ++ ".trajectory") = a.
Proof. unfold trajectory_stem. rewrite string_length_app. replace (String.length a + String.length ".trajectory" - 11) with (String.length a) by (cbn [String.length]; lia). apply substring_app. Qed.
Lemma run_app a b : LogicModel.all_chars stem_char a = true -> word_run (a ++ b) = (a ++ word_run b)%string.
Proof. induction a as [|c a IH]; [reflexivity|]. cbn [all_chars append word_run]. intros H. apply andb_true_iff in H. destruct H as (H1 & H2). rewrite H1, (IH H2). reflexivity. Qed.
Lemma decimal_chars n : all_chars stem_char (decimal n) = true.
Proof.
  unfold decimal. assert (G : forall d, all_chars stem_char (DecimalString.NilEmpty.string_of_uint d) = true) by (induction d; [reflexivity|..]; cbn [DecimalString.NilEmpty.string_of_uint all_chars]; rewrite IHd; reflexivity).
  unfold DecimalString.NilZero.string_of_uint. destruct (Nat.to_uint n) eqn:E; [reflexivity|..]; apply G.
Qed.
Lemma decimal_first n r : String.prefix "episode" (decimal n ++ r) = false.
Proof. unfold decimal, DecimalString.NilZero.string_of_uint. destruct (Nat.to_uint n); reflexivity. Qed.
(** No "_episode" starts in the text. *)
Fixpoint clear_of (s : string) : bool := match s with "" => true | String c t => negb (String.prefix "_episode" s) && clear_of t end.
Lemma clear_app a b : no_under a = true -> clear_of (a ++ b) = clear_of b.
Proof.
  induction a as [|c a IH]; [reflexivity|]. cbn [append]. intros H. cbn [no_under] in H. apply andb_true_iff in H. destruct H as (H1 & H2). change (negb (String.prefix "_episode" (String c (a ++ b))) && clear_of (a ++ b) = clear_of b). rewrite (IH H2).
  assert (P : String.prefix "_episode" (String c (a ++ b)) = false); [|rewrite P; reflexivity]. cbn [String.prefix]. destruct (Ascii.ascii_dec "_"%char c) as [<-|]; [discriminate H1|reflexivity].
Qed.
Lemma clear_none s : clear_of s = true -> forall c, before_episode (String c s) = None.
Proof.
  induction s as [|d s IH]; intros C c; [reflexivity|]. assert (C2 : clear_of s = true) by (cbn [clear_of] in C; apply andb_true_iff in C; apply C). assert (C1 : String.prefix "_episode" (String d s) = false) by (cbn [clear_of] in C; apply andb_true_iff in C; destruct C as (C & _); apply negb_true_iff in C; exact C).
  change (match before_episode (String d s) with Some g => Some (String c g) | None => if String.prefix "_episode" (String d s) then Some (String c "") else None end = None). rewrite (IH C2 d), C1. reflexivity.
Qed.
Lemma prefix_app a b : String.prefix a (a ++ b) = true.
Proof. induction a as [|c a IH]; [destruct b; reflexivity|]. cbn. destruct (Ascii.ascii_dec c c); [exact IH|congruence]. Qed.
Lemma before_found t : before_episode ("_episode" ++ t) = None -> forall s, s <> "" -> before_episode (s ++ "_episode" ++ t) = Some s.
Proof.
  intros N. induction s as [|c s IH]; [congruence|]. intros _. destruct s as [|d s].
  - change (match before_episode ("_episode" ++ t) with Some g => Some (String c g) | None => if String.prefix "_episode" ("_episode" ++ t) then Some (String c "") else None end = Some (String c "")). rewrite N, prefix_app. reflexivity.
  - change (match before_episode (String d s ++ "_episode" ++ t) with Some g => Some (String c g) | None => if String.prefix "_episode" (String d s ++ "_episode" ++ t) then Some (String c "") else None end = Some (String c (String d s))). rewrite IH by discriminate. reflexivity.
Qed.
Lemma search_unfold s : search_name s = match (if String.prefix "trajectory_" s then before_episode (word_run (drop_chars 11 s)) else None) with
  | Some g => Some g | None => match s with "" => None | String _ s => search_name s end end.
Proof. destruct s; reflexivity. Qed.
Lemma word_all s : (forall s1 c s2, s = (s1 ++ String c s2)%string -> stem_char c = true) -> all_chars stem_char s = true.
Proof.
  induction s as [|c s IH]; intros H; [reflexivity|]. cbn [all_chars]. rewrite (H "" c s eq_refl). apply IH. intros s1 d s2 ->. exact (H (String c s1) d s2 eq_refl).
Qed.
Lemma name_found name e i : word_name name -> search_name (trajectory_stem (file_path name e i)) = Some name.
Proof.
  intros (NE & W). apply word_all in W. unfold file_path.
  set (stem := ("trajectory_" ++ name ++ "_episode_" ++ decimal e ++ "_part_" ++ decimal i)%string).
  replace ("trajectory_" ++ name ++ "_episode_" ++ decimal e ++ "_part_" ++ decimal i ++ ".trajectory")%string with (stem ++ ".trajectory")%string by (unfold stem; rewrite !app_assoc_s; reflexivity).
  rewrite stem_app, search_unfold. unfold stem at 1 2. rewrite prefix_app.
  change (drop_chars 11 ("trajectory_" ++ name ++ "_episode_" ++ decimal e ++ "_part_" ++ decimal i)) with (name ++ "_episode" ++ "_" ++ decimal e ++ "_part_" ++ decimal i)%string.
  rewrite (run_app name) by exact W. rewrite (run_app "_episode") by reflexivity. rewrite (run_app "_") by reflexivity. rewrite (run_app (decimal e)) by apply decimal_chars. rewrite (run_app "_part_") by reflexivity.
  assert (R : word_run (decimal i) = decimal i) by (pose proof (run_app (decimal i) "" (decimal_chars i)) as R; rewrite app_empty in R; etransitivity; [exact R|apply app_empty]). rewrite R.
  rewrite before_found; [reflexivity| |exact NE]. apply (clear_none ("episode" ++ "_" ++ decimal e ++ "_part_" ++ decimal i)%string).
  rewrite (clear_app "episode") by reflexivity. change ("_" ++ decimal e ++ "_part_" ++ decimal i)%string with (String "_" (decimal e ++ "_part_" ++ decimal i)).
  change (clear_of (String "_" (decimal e ++ "_part_" ++ decimal i))) with (negb (String.prefix "episode" (decimal e ++ "_part_" ++ decimal i)) && clear_of (decimal e ++ "_part_" ++ decimal i)).
  rewrite decimal_first. cbn [negb andb]. rewrite (clear_app (decimal e)) by apply decimal_no_under. 
  change (clear_of ("_part_" ++ decimal i)) with (negb (String.prefix "episode" (decimal i)) && clear_of (decimal i)).
  pose proof (decimal_first i "") as D. rewrite app_empty in D. rewrite D. pose proof (clear_app (decimal i) "" (decimal_no_under i)) as C. rewrite app_empty in C. rewrite C. reflexivity.
Qed.

(** ** Recorded steps *)
Definition step_op (s : episode_step) : op world call := Step world call (es_call s) (es_ok s) (es_prev s) (es_next s).
Definition record_all (r : recorder world call) (l : list episode_step) : res (recorder world call) :=
  fold_res (fun r s => record_single_step world call c_name r (es_call s) (es_ok s) (es_prev s) (es_next s)) l r.
Lemma record_app r l l' : record_all r (l ++ l') = let* r1 := record_all r l in record_all r1 l'.
Proof. apply fold_res_app. Qed.
Lemma record_files r c ok w w' r' : record_single_step world call c_name r c ok w w' = Ok r' ->
  r_files world call r' = r_files world call r /\ r_paths world call r' = r_paths world call r /\ r_episode world call r' = r_episode world call r.
Proof.
  unfold record_single_step. destruct ok; intros E.
  - apply bind_Ok in E; destruct E as (i & _ & E). apply bind_Ok in E; destruct E as (i' & _ & E). apply bind_Ok in E; destruct E as (h & _ & E). injection E as <-. auto.
  - apply bind_Ok in E; destruct E as (i & _ & E). apply bind_Ok in E; destruct E as (i' & _ & E). injection E as <-. auto.
Qed.
Lemma record_all_inv names : Forall plain_name names -> forall l os r r', record_inv names os r -> Forall (fun s => In (c_name (es_call s)) names) l -> record_all r l = Ok r' ->
  record_inv names (os ++ map step_op l) r' /\ r_files world call r' = r_files world call r /\ r_paths world call r' = r_paths world call r /\ r_episode world call r' = r_episode world call r.
Proof.
  intros PN. induction l as [|s l IH]; intros os r r' V F; unfold record_all; cbn [fold_res]; [intros [= <-]; cbn [map]; rewrite app_nil_r; auto|].
  inversion F as [|? ? F1 F2]; subst. destruct (record_single_step world call c_name r (es_call s) (es_ok s) (es_prev s) (es_next s)) as [r1|] eqn:R; [|discriminate]. cbn [bind]. intros X.
  destruct (do_op_inv world call c_name 0 names os r (step_op s) PN V F1) as (r2 & E & V2). unfold step_op in E. cbn [do_op] in E. rewrite R in E. injection E as <-. destruct (record_files _ _ _ _ _ _ R) as (FF & FP & FE).
  destruct (IH _ _ _ V2 F2 X) as (V3 & F3 & P3 & E3). rewrite <- app_assoc in V3. cbn [map]. split; [exact V3|]. split; [congruence|]. split; congruence.
Qed.

Section Proofs.
Variable le : text -> text -> bool.
Variables unit fine : positive.
Variable fit : list (list Q) -> list Q -> list Q * Q * bool.
Variable hull : list (list Q) -> option (list (list Q) * list Q).
Variable schmidt : list (list Q) -> list (list Q) -> list (list Q).
Variable rank : list (list Q) -> nat.
Variable svm : list (list Q * bool) -> list Q * Q.
Variable limit : nat.
Variable flatten : bool.
Variable dom : domain.
Variable rd : random.
Variables min_episodes min_executions max_steps max_failed max_file : nat.
Variable problem_files : list string.
Hypothesis FAIR : fair rd.
Notation names := (dict_keys (d_actions dom)).
Notation train := (numeric_train_trace unit fit hull schmidt dom).
Notation semi_sort := (semi_sort dom rd).
Notation semi_select := (semi_select unit fit hull schmidt dom).
Notation semi_loop := (semi_loop unit fit hull schmidt dom rd max_steps max_failed).
Notation semi_explore := (semi_explore unit fit hull schmidt dom rd max_steps max_failed).

(** ** Exploring *)
Definition more_draws (M : semi) : semi := mk_semi (se_learners M) (se_rec M) (se_fails M) (se_queue M) (se_draws M + 1).
Lemma sort_spec E M M' l : semi_sort E M = Ok (M', l) -> M' = more_draws M /\ allowed E l /\ length l = length (injective_actions E) /\ (NoDup (en_actions E) -> Permutation l (injective_actions E)).
Proof.
  unfold SemiModel.semi_sort. destruct (sort_by_success dom rd E (as_noam M)) as [(N & l0)|] eqn:S1; [|discriminate]. cbn [bind]. intros [= <- <-].
  destruct (frontier_spec dom rd FAIR noam_learner E (as_noam M) N l0 S1) as (-> & A & L & P). split; [reflexivity|auto].
Qed.
Lemma base_spec E : forall frontier N w N' c ok w', allowed E frontier -> base_select unit fit hull schmidt dom E N w frontier = Ok (N', (c, ok, w')) ->
  exists before, let r := before ++ [step_of w c w' ok] in
    nm_learners N' = nm_learners N /\ nm_draws N' = nm_draws N /\ nm_fails N' = nm_fails N + failures r /\ record_all (nm_rec N) r = Ok (nm_rec N') /\
    Forall (attempt_at E w) r /\ Forall (fun s => In (c_name (es_call s)) names) r /\ Forall (fun s => es_ok s = false) before /\ (ok = false -> map es_call r = frontier).
Proof.
  induction frontier as [|d frontier IH]; intros N w N' c ok w' A; [discriminate|]. cbn [base_select]. destruct (execute_selected unit fit hull schmidt dom E N d w false) as [(N1 & (w1 & ok1))|] eqn:X; [|discriminate]. cbn [bind].
  assert (S1 : nm_learners N1 = nm_learners N /\ nm_draws N1 = nm_draws N /\ nm_fails N1 = nm_fails N + failures [step_of w d w1 ok1] /\ record_all (nm_rec N) [step_of w d w1 ok1] = Ok (nm_rec N1) /\ real_outcome E w d w1 ok1 /\ In (c_name d) names).
  { unfold execute_selected in X. destruct (NoamModel.observe E w d) as [(w2 & ok2)|] eqn:O; [|discriminate]. cbn [bind] in X. apply observe_real in O. destruct (triplet_snapshot dom (fst w) (fst w2) d) as [?|] eqn:TS; [|discriminate]. cbn [bind] in X.
    destruct (record_single_step world call c_name (nm_rec N) d ok2 w w2) as [r|] eqn:R; [|discriminate]. cbn [bind] in X. injection X as <- <- <-.
    assert (IN : In (c_name d) names) by (unfold triplet_snapshot, dict_lookup in TS; destruct (dict_get (d_actions dom) (c_name d)) eqn:G; [apply dict_get_key in G; exact G|discriminate TS]).
    split; [destruct ok2; reflexivity|]. split; [destruct ok2; reflexivity|]. split; [destruct ok2; cbn; lia|]. split; [unfold record_all; cbn [fold_res]; unfold step_of, es_call, es_ok, es_prev, es_next; cbn; rewrite R; destruct ok2; reflexivity|]. auto. }
  destruct S1 as (L1 & D1 & F1 & R1 & O1 & I1). assert (AT : attempt_at E w (step_of w d w1 ok1)) by (apply (attempt_of E w d w1 ok1 (d :: frontier) A (or_introl eq_refl) O1)).
  assert (HERE : (ok1 = true \/ frontier = []) -> Ok (N1, (d, ok1, w1)) = Ok (N', (c, ok, w')) -> exists before, let r := before ++ [step_of w c w' ok] in
    nm_learners N' = nm_learners N /\ nm_draws N' = nm_draws N /\ nm_fails N' = nm_fails N + failures r /\ record_all (nm_rec N) r = Ok (nm_rec N') /\
    Forall (attempt_at E w) r /\ Forall (fun s => In (c_name (es_call s)) names) r /\ Forall (fun s => es_ok s = false) before /\ (ok = false -> map es_call r = d :: frontier)).
  { intros OR Y. injection Y as <- <- <- <-. exists []. cbn [app]. split; [exact L1|]. split; [exact D1|]. split; [exact F1|]. split; [exact R1|]. split; [constructor; [exact AT|constructor]|]. split; [constructor; [exact I1|constructor]|]. split; [constructor|].
    intros Z. destruct OR as [OR| ->]; [congruence|reflexivity]. }
  destruct ok1; [apply HERE; left; reflexivity|]. destruct frontier as [|d' frontier]; [apply HERE; right; reflexivity|]. clear HERE. intros Y.
  destruct (IH N1 w N' c ok w' (fun y Z => A y (or_intror Z)) Y) as (before & L2 & D2 & F2 & R2 & A2 & I2 & B2 & M2). exists (step_of w d w1 false :: before). cbn [app].
  split; [congruence|]. split; [congruence|]. split; [rewrite F2, F1; unfold failures; cbn; lia|].
  split; [change (step_of w d w1 false :: before ++ [step_of w c w' ok]) with ([step_of w d w1 false] ++ (before ++ [step_of w c w' ok])); rewrite record_app, R1; exact R2|].
  split; [constructor; assumption|]. split; [constructor; assumption|]. split; [constructor; [reflexivity|exact B2]|]. intros Z. cbn [map]. rewrite (M2 Z). reflexivity.
Qed.
Lemma select_spec E M w frontier M' c ok w' : allowed E frontier -> semi_select E M w frontier = Ok (M', (c, ok, w')) ->
  exists before, let r := before ++ [step_of w c w' ok] in
    se_learners M' = se_learners M /\ se_queue M' = se_queue M /\ se_fails M' = se_fails M + failures r /\ record_all (se_rec M) r = Ok (se_rec M') /\
    Forall (attempt_at E w) r /\ Forall (fun s => In (c_name (es_call s)) names) r /\ Forall (fun s => es_ok s = false) before /\ (ok = false -> map es_call r = frontier).
Proof.
  intros A. unfold SemiModel.semi_select. destruct (base_select unit fit hull schmidt dom E (as_noam M) w frontier) as [(N & ((c0 & ok0) & w0))|] eqn:B; [|discriminate]. cbn [bind]. intros Y. injection Y as <- <- <- <-.
  destruct (base_spec E frontier (as_noam M) w N c0 ok0 w0 A B) as (before & L & D & F & R & AT & I & FB & MM). exists before. cbn [of_noam se_learners se_queue se_fails se_rec]. auto 10.
Qed.
Lemma loop_spec E : NoDup (en_actions E) -> forall todo step M w frontier M' goal n, allowed E frontier -> length frontier = length (injective_actions E) -> Permutation frontier (injective_actions E) ->
  semi_loop todo E step M w frontier = Ok (M', (goal, n)) ->
  exists rs ws, roams E w rs ws /\ length ws <= todo /\ record_all (se_rec M) (concat rs) = Ok (se_rec M') /\ Forall (fun s => In (c_name (es_call s)) names) (concat rs) /\
    se_fails M' = se_fails M + failures (concat rs) /\ se_queue M' = se_queue M /\
    (forall rs1 r rs2, rs = rs1 ++ r :: rs2 -> se_fails M + failures (concat rs1) < max_failed) /\
    if goal then se_learners M' = se_learners M /\ exists ws' w', ws = ws' ++ [w'] /\ en_goal E w' = Ok true /\ Forall (fun w => en_goal E w = Ok false) ws'
    else train (se_learners M) [] = Ok (se_learners M') /\ Forall (fun w => en_goal E w = Ok false) ws /\
      (length ws = todo \/ max_failed <= se_fails M' \/ injective_actions E = []).
Proof.
  intros ND. induction todo as [|todo IH]; intros step M w frontier M' goal n A LF PF.
  - assert (STOP : forall P : Prop, (length (@nil world) = 0 \/ P) -> (let* M1 := semi_reviews unit fit hull schmidt dom M in Ok (M1, (false, max_steps))) = Ok (M', (goal, n)) ->
      exists rs ws, roams E w rs ws /\ length ws <= 0 /\ record_all (se_rec M) (concat rs) = Ok (se_rec M') /\ Forall (fun s => In (c_name (es_call s)) names) (concat rs) /\
      se_fails M' = se_fails M + failures (concat rs) /\ se_queue M' = se_queue M /\ (forall rs1 r rs2, rs = rs1 ++ r :: rs2 -> se_fails M + failures (concat rs1) < max_failed) /\
      if goal then se_learners M' = se_learners M /\ exists ws' w', ws = ws' ++ [w'] /\ en_goal E w' = Ok true /\ Forall (fun w => en_goal E w = Ok false) ws'
      else train (se_learners M) [] = Ok (se_learners M') /\ Forall (fun w => en_goal E w = Ok false) ws /\ (length ws = 0 \/ max_failed <= se_fails M' \/ injective_actions E = [])).
    { intros P _. unfold semi_reviews. destruct (fold_res _ names (se_learners M)) as [L|] eqn:R; [|discriminate]. cbn [bind]. intros X. injection X as <- <- <-. exists [], []. split; [constructor|]. split; [cbn; lia|]. split; [reflexivity|]. split; [constructor|]. split; [cbn; unfold failures; cbn; lia|].
      split; [reflexivity|]. split; [intros [|? ?] ? ?; discriminate|]. split; [unfold numeric_train_trace; cbn [fold_res bind]; exact R|]. split; [constructor|left; reflexivity]. }
    cbn [SemiModel.semi_loop]. apply (STOP True). left. reflexivity.
  - assert (STOP : (max_failed <= se_fails M \/ injective_actions E = []) -> (let* M1 := semi_reviews unit fit hull schmidt dom M in Ok (M1, (false, max_steps))) = Ok (M', (goal, n)) ->
      exists rs ws, roams E w rs ws /\ length ws <= S todo /\ record_all (se_rec M) (concat rs) = Ok (se_rec M') /\ Forall (fun s => In (c_name (es_call s)) names) (concat rs) /\
      se_fails M' = se_fails M + failures (concat rs) /\ se_queue M' = se_queue M /\ (forall rs1 r rs2, rs = rs1 ++ r :: rs2 -> se_fails M + failures (concat rs1) < max_failed) /\
      if goal then se_learners M' = se_learners M /\ exists ws' w', ws = ws' ++ [w'] /\ en_goal E w' = Ok true /\ Forall (fun w => en_goal E w = Ok false) ws'
      else train (se_learners M) [] = Ok (se_learners M') /\ Forall (fun w => en_goal E w = Ok false) ws /\ (length ws = S todo \/ max_failed <= se_fails M' \/ injective_actions E = [])).
    { intros OR. unfold semi_reviews. destruct (fold_res _ names (se_learners M)) as [L|] eqn:R; [|discriminate]. cbn [bind]. intros X. injection X as <- <- <-. exists [], []. split; [constructor|]. split; [cbn; lia|]. split; [reflexivity|]. split; [constructor|]. split; [cbn; unfold failures; cbn; lia|].
      split; [reflexivity|]. split; [intros [|? ?] ? ?; discriminate|]. split; [unfold numeric_train_trace; cbn [fold_res bind]; exact R|]. split; [constructor|]. right. exact OR. }
    cbn [SemiModel.semi_loop]. destruct frontier as [|d frontier]; [apply STOP; right; destruct (injective_actions E); [reflexivity|discriminate LF]|].
    destruct (se_fails M <? max_failed) eqn:FL; cbn [negb]; [|apply STOP; left; apply Nat.ltb_ge; exact FL]. apply Nat.ltb_lt in FL. clear STOP.
    destruct (semi_select E M w (d :: frontier)) as [(M1 & ((c & ok) & w'))|] eqn:S1; [|discriminate]. cbn [bind].
    destruct (select_spec E M w (d :: frontier) M1 c ok w' A S1) as (before & L1 & Q1 & F1 & R1 & A1 & I1 & B1 & MM). set (r := before ++ [step_of w c w' ok]) in *.
    assert (RA : round_at E w r w').
    { split; [exact A1|]. exists before, (step_of w c w' ok). split; [reflexivity|]. split; [exact B1|]. split; [reflexivity|]. intros OK x X N. cbn in OK. unfold es_ok, step_of in OK. cbn in OK. rewrite (MM OK). eapply Permutation_in; [apply Permutation_sym; exact PF|]. apply injective_In. split; assumption. }
    destruct (semi_sort E M1) as [(M2 & frontier')|] eqn:S2; [|discriminate]. cbn [bind]. destruct (sort_spec _ _ _ _ S2) as (-> & A2 & LF2 & PF2).
    destruct (en_goal E w') as [[|]|] eqn:G; [| |discriminate]; cbn [bind].
    + intros X. injection X as <- <- <-. exists [r], [w']. split; [econstructor; [exact RA|constructor]|]. split; [cbn; lia|]. cbn [concat]. rewrite app_nil_r. split; [exact R1|]. split; [exact I1|]. split; [exact F1|]. split; [exact Q1|].
      split; [intros [|? [|? ?]] r0 rs2 Z; try discriminate Z; cbn; unfold failures; cbn; lia|]. split; [exact L1|]. exists [], w'. split; [reflexivity|]. split; [exact G|constructor].
    + intros X. destruct (IH (step + 1) (more_draws M1) w' frontier' M' goal n A2 LF2 (PF2 ND) X) as (rs & ws & RO & LW & R2 & I2 & F2 & Q2 & BU & RES). cbn [more_draws se_rec se_fails se_queue se_learners] in *.
      exists (r :: rs), (w' :: ws). split; [econstructor; eassumption|]. split; [cbn; lia|]. cbn [concat]. split; [rewrite record_app, R1; exact R2|]. split; [apply Forall_app; split; assumption|]. split; [rewrite failures_app; lia|]. split; [congruence|].
      split; [intros [|r1 rs1] r0 rs2 Z; [cbn; unfold failures; cbn; lia|]; injection Z as -> Z; cbn [concat]; rewrite failures_app; specialize (BU _ _ _ Z); lia|].
      rewrite <- L1. destruct goal.
      * destruct RES as (L2 & ws' & w'' & -> & G' & FG). split; [exact L2|]. exists (w' :: ws'), w''. split; [reflexivity|]. split; [exact G'|constructor; assumption].
      * destruct RES as (L2 & FG & OR). split; [exact L2|]. split; [constructor; assumption|]. cbn [length]. destruct OR as [OR|OR]; [left; lia|right; exact OR].
Qed.

(** The recorded steps are a chain of states. *)
Inductive chain : world -> list episode_step -> world -> Prop :=
| chain_nil w : chain w [] w
| chain_step s l w' : chain (es_next s) l w' -> chain (es_prev s) (s :: l) w'.
Lemma chain_app w l w' l' w'' : chain w l w' -> chain w' l' w'' -> chain w (l ++ l') w''.
Proof. induction 1; [auto|]. intros C. cbn [app]. constructor. auto. Qed.
Lemma round_chain E w r w' : round_at E w r w' -> chain w r w'.
Proof.
  intros (F & failed & last & -> & FF & NX & _). apply Forall_app in F. destruct F as (F1 & F2). apply chain_app with w.
  - induction F1 as [|s l (P & H & _) _ IH]; [constructor|]. inversion FF as [|? ? OK FF']; subst. constructor. destruct H as (_ & H). rewrite OK in H. destruct H as (_ & ->). apply IH. exact FF'.
  - inversion F2 as [|? ? (P & _) _]; subst. constructor. constructor.
Qed.
Lemma roams_chain E w rs ws : roams E w rs ws -> exists w', chain w (concat rs) w'.
Proof. induction 1 as [w|w r w' rs ws R _ (w'' & C)]; [exists w; constructor|]. exists w''. cbn [concat]. eapply chain_app; [eapply round_chain; exact R|exact C]. Qed.
Lemma chain_continuous w l w' : chain w l w' -> continuous world call l.
Proof. induction 1 as [w|s l w' C IH]; [exact I|]. destruct l as [|y l]; [exact I|]. split; [|exact IH]. inversion C as [|? ? ? ? HP]; subst. first [exact HP|symmetry; exact HP|symmetry; assumption|assumption]. Qed.

(** ** Files *)
Lemma follow_read : forall body w, follow w body = map as_component (read_body world call w body).
Proof. induction body as [|[[c ok] w'] body IH]; intros w; [reflexivity|]. cbn [follow read_body map]. rewrite IH. reflexivity. Qed.
Lemma trace_read f : trace_of f = map as_component (read_file world call f).
Proof. apply follow_read. Qed.
Lemma reading : forall fs M M', r_files world call (se_rec M) = fs -> NoDup (map (f_name world call) fs) ->
  read_trajectories unit fit hull schmidt dom problem_files (map (f_name world call) fs) M = Ok M' ->
  fold_res train (map trace_of fs) (se_learners M) = Ok (se_learners M') /\ se_queue M' = [] /\ r_files world call (se_rec M') = [] /\ se_fails M' = se_fails M /\
  r_paths world call (se_rec M') = r_paths world call (se_rec M) /\ r_episode world call (se_rec M') = r_episode world call (se_rec M) /\ forall os, record_inv names os (se_rec M) -> record_inv names os (se_rec M').
Proof.
  induction fs as [|f fs IH]; intros M M' EF ND; cbn [map read_trajectories].
  - intros [= <-]. cbn. auto 10.
  - destruct (search_name _) as [pn|]; [|discriminate]. destruct (negb (memb pn problem_files)); [discriminate|]. rewrite EF. cbn [find_file find]. unfold find_file. cbn [find]. rewrite String.eqb_refl.
    unfold semi_train. destruct (train (se_learners M) (trace_of f)) as [L|] eqn:T; [|discriminate]. cbn [bind]. inversion ND as [|? ? N1 N2]; subst.
    set (M1 := se_with_rec (se_with_learners M L) (unlink (se_rec (se_with_learners M L)) (f_name world call f))).
    assert (EF1 : r_files world call (se_rec M1) = fs).
    { unfold M1. cbn [se_with_rec se_rec unlink r_files se_with_learners]. rewrite EF. cbn [filter]. rewrite String.eqb_refl. cbn [negb]. apply filter_all. intros g G. apply negb_true_iff, String.eqb_neq. intros Z. apply N1. rewrite <- Z. apply in_map. exact G. }
    intros X. destruct (IH M1 M' EF1 N2 X) as (T2 & Q2 & F2 & FF & PP & EE & VV). cbn [fold_res]. rewrite T. cbn [bind]. split; [exact T2|]. split; [exact Q2|]. split; [exact F2|]. split; [exact FF|]. split; [exact PP|]. split; [exact EE|].
    intros os V. apply VV. destruct V. constructor; assumption.
Qed.

(** ** Plans *)
Lemma plan_last E w plan t w' b : plan_run E w plan t w' b -> match rev t with [] => w' = w | cp :: _ => (cp_next (nc_comp cp), nc_next cp) = w' end.
Proof.
  induction 1 as [w|w c w' plan t w'' b R P IH|w c plan R]; [reflexivity| |].
  - cbn [rev]. destruct (rev t) as [|cp l]; [cbn|exact IH]. subst w''. destruct w'; reflexivity.
  - cbn. destruct w; reflexivity.
Qed.
Lemma solvers_spec model P svs0 : forall solvers last M M' st w, last <> st_ok -> Forall (refused model P) svs0 -> semi_solvers unit fit hull schmidt dom solvers last model P M = Ok (M', (st, w)) ->
  exists t w', match t with
    | None => Forall (refused model P) (svs0 ++ solvers) /\ st = List.last (map (fun sv : solver => fst (sv model P)) solvers) last /\ w' = pr_init P
    | Some t => exists svs sv svs' plan b, svs0 ++ solvers = svs ++ sv :: svs' /\ Forall (refused model P) svs /\ sv model P = (st_ok, plan) /\ plan_run (pr_env P) (pr_init P) plan t w' b /\
      ((st = st_ok /\ en_goal (pr_env P) w' = Ok true) \/ (st = (if b then st_goal_not_achieved else st_not_applicable) /\ en_goal (pr_env P) w' = Ok false))
    end /\ fold_res train (trace_list t) (se_learners M) = Ok (se_learners M') /\ M' = se_with_learners M (se_learners M') /\ w = if is_ok st then None else Some w'.
Proof.
  intros solvers. revert svs0. induction solvers as [|sv solvers IH]; intros svs0 last M M' st w NL F0; cbn [semi_solvers].
  - intros X. injection X as <- <- <-. exists None, (pr_init P). split; [rewrite app_nil_r; split; [exact F0|split; reflexivity]|]. split; [reflexivity|]. split; [destruct M; reflexivity|]. destruct last; try reflexivity. congruence.
  - destruct (sv model P) as (s & plan) eqn:SV. destruct (is_ok s) eqn:OK.
    + assert (s = st_ok) as -> by (destruct s; try discriminate OK; reflexivity).
      destruct (NoamModel.execute_plan (pr_env P) (pr_init P) plan) as [((t & final) & app)|] eqn:EP; [|discriminate]. cbn [bind]. apply executed_plan in EP. destruct (en_goal (pr_env P) final) as [g|] eqn:G; [|discriminate]. cbn [bind].
      unfold semi_train. destruct (train (se_learners M) t) as [L|] eqn:T; [|discriminate]. cbn [bind]. destruct g.
      * intros X. injection X as <- <- <-. exists (Some t), final. split; [exists svs0, sv, solvers, plan, app; split; [reflexivity|]; split; [exact F0|]; split; [exact SV|]; split; [exact EP|left; auto]|]. split; [cbn; rewrite T; reflexivity|]. split; reflexivity.
      * pose proof (plan_last _ _ _ _ _ _ EP) as PL. destruct (rev t) as [|cp l]; [discriminate|]. intros X. injection X as <- <- <-. exists (Some t), final. split; [exists svs0, sv, solvers, plan, app; split; [reflexivity|]; split; [exact F0|]; split; [exact SV|]; split; [exact EP|right; auto]|]. split; [cbn; rewrite T; reflexivity|].
        split; [reflexivity|]. rewrite PL. destruct app; reflexivity.
    + intros X. assert (NS : s <> st_ok) by (intros ->; discriminate OK).
      destruct (IH (svs0 ++ [sv]) s M M' st w NS) as (t & w' & A & R); [apply Forall_app; split; [exact F0|constructor; [unfold refused; rewrite SV; exact NS|constructor]]|exact X|].
      exists t, w'. split; [|exact R]. rewrite <- app_assoc in A. cbn [app] in A. destruct t as [t|]; [exact A|]. destruct A as (A1 & A2 & A3). split; [exact A1|]. split; [|exact A3]. rewrite A2. cbn [map List.last]. rewrite SV. cbn [fst].
      destruct (map (fun sv0 : solver => fst (sv0 model P)) solvers) as [|x xs] eqn:EM; [reflexivity|]. clear. revert x. induction xs as [|y ys IHx]; intros x; [reflexivity|]. cbn in *. apply IHx.
Qed.
Lemma solve_spec safe solvers P M M' st w : semi_solve unit fine fit hull schmidt rank svm limit flatten dom safe solvers P M = Ok (M', (st, w)) ->
  exists model t w', (if safe then construct_safe_action_model unit fine fit rank flatten dom (se_learners M) else construct_optimistic_action_model unit fine fit rank svm limit flatten dom (se_learners M)) = Ok model /\
    attempted solvers model P t st w' /\ fold_res train (trace_list t) (se_learners M) = Ok (se_learners M') /\ M' = se_with_learners M (se_learners M') /\ w = if is_ok st then None else Some w'.
Proof.
  unfold semi_solve. destruct (if safe then _ else _) as [model|]; [|discriminate]. cbn [bind]. intros X. destruct (solvers_spec model P [] solvers st_no_solution M M' st w ltac:(discriminate) (Forall_nil _) X) as (t & w' & A & R).
  exists model, t, w'. split; [reflexivity|]. split; [|exact R]. destruct t; exact A.
Qed.
End Proofs.
