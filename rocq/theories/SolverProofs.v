(** * Proofs about the planner runs *)
From Verif Require Import SolverModel SolverSpec EpisodeProofs Prelude PreludeProofs.
Open Scope string_scope. Open Scope list_scope. Open Scope nat_scope.

(** ** Texts *)
Lemma substring_all (s t : string) : substring 0 (String.length s) (s ++ t) = s.
Proof. induction s as [|c s IH]; cbn; [destruct t; reflexivity|]. now rewrite IH. Qed.
Lemma substring_skip (a s t : string) : substring (String.length a) (String.length s) (a ++ s ++ t)%string = s.
Proof. induction a as [|c a IH]; cbn; [apply substring_all|exact IH]. Qed.
Lemma substring_prefix (m : nat) : forall t, exists b, t = (substring 0 m t ++ b)%string.
Proof.
  induction m; intros t; [exists t; destruct t; reflexivity|].
  destruct t as [|c t]; [exists ""; reflexivity|]. destruct (IHm t) as [b E]. exists b. cbn. now f_equal.
Qed.
Lemma substring_split (t : string) : forall n m, exists a b, t = (a ++ substring n m t ++ b)%string.
Proof.
  induction t as [|c t IH]; intros n m.
  - exists "", "". destruct n, m; reflexivity.
  - destruct n.
    + destruct (substring_prefix m (String c t)) as [b E]. exists "", b. exact E.
    + destruct (IH n m) as (a & b & E). exists (String c a), b. cbn. now f_equal.
Qed.
Lemma in_text_iff part text : part <> "" -> in_text part text = true <-> contains text part.
Proof.
  intros N. unfold in_text, contains. destruct (index 0 part text) as [m|] eqn:E.
  - apply index_correct1 in E. split; [intros _|reflexivity].
    destruct (substring_split text m (String.length part)) as (a & b & D). rewrite E in D. eauto.
  - split; [discriminate|]. intros (a & b & ->). exfalso.
    apply (index_correct3 0 (String.length a) part (a ++ part ++ b)%string E N); [lia|apply substring_skip].
Qed.
Lemma in_text_not part text : part <> "" -> in_text part text = false <-> ~ contains text part.
Proof. intros N. rewrite <- (in_text_iff part text N). destruct (in_text part text); split; congruence. Qed.

(** ** Files *)
Lemma file_put m p c f : dict_get (m_files (put m p c)) f = if eq_dec f (resolve (m_cwd m) p) then c else dict_get (m_files m) f.
Proof.
  unfold put. cbn. destruct c as [c|].
  - rewrite dict_get_set. repeat match goal with |- context [if ?d then _ else _] => destruct d end; congruence.
  - apply dict_pop_get.
Qed.
Lemma solution_inj p q d cwd : resolve cwd (join d (solution_name p)) = resolve cwd (join d (solution_name q)) -> stem_of p = stem_of q.
Proof.
  unfold solution_name. destruct d; cbn; [|rewrite !app_assoc]; intros E; apply app_inj_tail in E as [_ E];
    apply append_inj_r in E; exact E.
Qed.

(** ** The loop over the problems *)
Lemma firstn_snoc {A} (l : list A) x i : i < length l -> firstn i (l ++ [x]) = firstn i l.
Proof. intros L. rewrite firstn_app. replace (i - length l) with 0 by lia. cbn. apply app_nil_r. Qed.
Lemma nth_error_snoc {A} (l : list A) x i y : nth_error (l ++ [x]) i = Some y -> (i < length l /\ nth_error l i = Some y) \/ (i = length l /\ x = y).
Proof.
  intros E. destruct (Nat.lt_ge_cases i (length l)) as [L|L].
  - left. split; [exact L|]. now rewrite nth_error_app1 in E.
  - right. rewrite nth_error_app2 in E by exact L. destruct (i - length l) eqn:D; cbn in E; [|destruct n; discriminate].
    injection E as ->. split; [lia|reflexivity].
Qed.
Lemma list_sum_snoc l x : list_sum (l ++ [x]) = list_sum l + x.
Proof. rewrite list_sum_app. cbn. lia. Qed.

Lemma reported_nil handled solution other m : reported handled solution other [] m m [].
Proof.
  split; [reflexivity|]. split; [|auto]. exists []. split; [reflexivity|]. split; [cbn; lia|]. intros [|i] problem E; discriminate.
Qed.

Lemma reported_snoc handled solution (other : list string -> Prop) problems p m m1 m2 report k o :
  (forall q, In q problems -> solution q <> solution p /\ stem_of q <> stem_of p) -> (forall q, In q problems -> other (solution q)) -> other (solution p) ->
  reported handled solution other problems m m1 report ->
  m_runs m2 = m_runs m1 + k -> handled (m_runs m1) p k o (dict_get (m_files m1) (solution p)) (dict_get (m_files m2) (solution p)) ->
  (forall f, f <> solution p -> other f -> dict_get (m_files m2) f = dict_get (m_files m1) f) ->
  reported handled solution other (problems ++ [p]) m m2 (dict_set report (stem_of p) (outcome_name o)).
Proof.
  intros D O Op (K & (uses & LU & RU & H) & F) R2 H2 F2.
  assert (~ In (stem_of p) (map fst report)) as NR.
  { rewrite K. intros X. apply in_map_iff in X as (q & E & Iq). destruct (D q Iq). congruence. }
  assert (~ In (solution p) (map solution problems)) as NS.
  { intros X. apply in_map_iff in X as (q & E & Iq). destruct (D q Iq). congruence. }
  split; [|split].
  - rewrite dict_set_keys_new by exact NR. rewrite !map_app, K. reflexivity.
  - exists (uses ++ [k]). split; [rewrite !app_length, LU; reflexivity|]. split; [rewrite list_sum_snoc; lia|].
    intros i q E. apply nth_error_snoc in E as [(L & E)|(-> & <-)].
    + destruct (H i q E) as (k' & o' & Ek & G & Hh). exists k', o'.
      pose proof (nth_error_In _ _ E) as Iq. destruct (D q Iq) as (Ds & Dt).
      rewrite nth_error_app1, firstn_snoc by lia. split; [exact Ek|]. split.
      * rewrite dict_get_set. match goal with |- context [if ?d then _ else _] => destruct d end; [congruence|exact G].
      * rewrite (F2 (solution q)) by auto. exact Hh.
    + exists k, o. rewrite <- LU at 1. rewrite nth_error_app2, Nat.sub_diag by lia. split; [reflexivity|]. split.
      * rewrite dict_get_set. match goal with |- context [if ?d then _ else _] => destruct d end; congruence.
      * rewrite <- LU, firstn_app, firstn_all, Nat.sub_diag. cbn. rewrite app_nil_r, <- RU.
        rewrite <- (F (solution p)) by auto. exact H2.
  - intros f Nf Of. rewrite map_app, in_app_iff in Nf. rewrite F2, F; [reflexivity| | | |]; auto. intros ->. apply Nf. right. now left.
Qed.

(** ** Metric-FF *)
Section MetricFF.
Variables (directory : list string -> bool) (process : nat -> command -> outcome_of_run).
Variables (status_of : content -> string) (plan_of : content -> content).

Lemma run_ff m c : let r := process (m_runs m) c in let file := resolve (m_cwd m) (cm_solution c) in
  let left := ru_solution r (dict_get (m_files m) file) in (ru_end r = Exit 0%Z -> left <> None) ->
  exists m' o, run_metric_ff_process process status_of plan_of m c = Ok (m', o) /\ ff_answer status_of (ru_end r) left o /\
    m_cwd m' = m_cwd m /\ m_runs m' = m_runs m + 1 /\
    dict_get (m_files m') file = match o with ok => option_map plan_of left | _ => None end /\
    forall f, f <> file -> dict_get (m_files m') f = dict_get (m_files m) f.
Proof.
  intros r file left W. unfold run_metric_ff_process, run, file_at. cbn [fst snd]. fold r. fold file. fold left.
  set (m1 := put (started m) (cm_solution c) left).
  assert (dict_get (m_files m1) (resolve (m_cwd m1) (cm_solution c)) = left) as E1.
  { unfold m1. rewrite file_put. cbn. fold file. destruct (eq_dec file file); congruence. }
  assert (forall x f, dict_get (m_files (put m1 (cm_solution c) x)) f = if eq_dec f file then x else dict_get (m_files m) f) as E2.
  { intros x f. rewrite file_put. change (resolve (m_cwd m1) (cm_solution c)) with file. destruct (eq_dec f file) as [->|N]; [reflexivity|].
    unfold m1. rewrite file_put. change (resolve (m_cwd (started m)) (cm_solution c)) with file. destruct (eq_dec f file); [congruence|reflexivity]. }
  assert (forall x o, m_cwd (put m1 (cm_solution c) x) = m_cwd m /\ m_runs (put m1 (cm_solution c) x) = m_runs m + 1 /\
          (x = match o with ok => option_map plan_of left | _ => None end ->
           dict_get (m_files (put m1 (cm_solution c) x)) file = match o with ok => option_map plan_of left | _ => None end) /\
          forall f, f <> file -> dict_get (m_files (put m1 (cm_solution c) x)) f = dict_get (m_files m) f) as E3.
  { intros x o. split; [reflexivity|]. split; [reflexivity|]. split.
    - intros ->. rewrite E2. destruct (eq_dec file file); congruence.
    - intros f N. rewrite E2. destruct (eq_dec f file); congruence. }
  rewrite E1. unfold unlink.
  assert (forall x o a, a = Ok (put m1 (cm_solution c) x, o) -> ff_answer status_of (ru_end r) left o ->
          x = match o with ok => option_map plan_of left | _ => None end ->
          exists m' o, a = Ok (m', o) /\ ff_answer status_of (ru_end r) left o /\ m_cwd m' = m_cwd m /\ m_runs m' = m_runs m + 1 /\
            dict_get (m_files m') file = match o with ok => option_map plan_of left | _ => None end /\
            forall f, f <> file -> dict_get (m_files m') f = dict_get (m_files m) f) as Fin.
  { intros x o a Ea A X. exists (put m1 (cm_solution c) x), o. destruct (E3 x o) as (? & ? & ? & ?). auto 10. }
  destruct (ru_end r) as [| |code] eqn:End.
  - eapply Fin; [reflexivity|constructor|reflexivity].
  - eapply Fin; [reflexivity|constructor|reflexivity].
  - destruct (code =? 0)%Z eqn:Z0.
    + apply Z.eqb_eq in Z0 as ->. cbn [negb]. destruct left as [text|] eqn:L; [|now destruct (W eq_refl)].
      destruct (Prelude.eqb (status_of text) "ok") eqn:K.
      * rewrite eqb_eq in K. eapply Fin; [reflexivity|now constructor|reflexivity].
      * rewrite eqb_neq in K. eapply Fin; [reflexivity|now constructor|reflexivity].
    + apply Z.eqb_neq in Z0. cbn [negb]. destruct left as [text|] eqn:L.
      * destruct (Prelude.eqb (status_of text) "ok") eqn:K; cbn [negb andb].
        -- rewrite eqb_eq in K. eapply Fin; [reflexivity|now constructor|reflexivity].
        -- rewrite eqb_neq in K. destruct (Prelude.eqb (status_of text) "no-solution") eqn:K'; cbn [negb].
           ++ rewrite eqb_eq in K'. eapply Fin; [reflexivity|now constructor|reflexivity].
           ++ rewrite eqb_neq in K'. eapply Fin; [reflexivity|now constructor|reflexivity].
      * exists m1, solver_error. split; [reflexivity|]. split; [now constructor|]. split; [reflexivity|]. split; [reflexivity|]. split.
        -- exact E1.
        -- intros f N. unfold m1. rewrite file_put. change (resolve (m_cwd (started m)) (cm_solution c)) with file. destruct (eq_dec f file); [congruence|reflexivity].
Qed.

Lemma solve_ff dir m domain problem where_ limit tolerance :
  directory (resolve (m_cwd m) dir) = true ->
  let cwd := resolve (m_cwd m) dir in
  let asked p := mk_command cwd domain p (join where_ (solution_name p)) limit tolerance in
  let file := resolve cwd (join where_ (solution_name problem)) in
  let old := dict_get (m_files m) file in
  let r := process (m_runs m) (asked problem) in
  (ru_end r = Exit 0%Z -> ru_solution r old <> None) ->
  exists m' o, solve_metric_ff directory process status_of plan_of dir m domain problem where_ limit tolerance = Ok (m', o) /\
    ff_handled process status_of plan_of asked (m_runs m) problem 1 o old (dict_get (m_files m') file) /\
    m_cwd m' = cwd /\ m_runs m' = m_runs m + 1 /\ forall f, f <> file -> dict_get (m_files m') f = dict_get (m_files m) f.
Proof.
  intros D cwd asked file old r W. unfold solve_metric_ff, chdir. rewrite D. cbn [bind m_cwd]. fold cwd.
  destruct (run_ff (mk_machine cwd (m_files m) (m_runs m)) (asked problem) W) as (m' & o & E & A & C & R & N & F).
  exists m', o. split; [exact E|]. split; [|now auto]. split; [reflexivity|]. split; [exact A|exact N].
Qed.

Lemma execute_ff dir m domain where_ problems limit tolerance :
  directory dir = true -> writes_solutions process -> NoDup (map stem_of problems) ->
  let asked p := mk_command dir domain p (join where_ (solution_name p)) limit tolerance in
  exists m' report, execute_metric_ff directory process status_of plan_of (Abs dir) m domain where_ problems limit tolerance = Ok (m', report) /\
    reported (ff_handled process status_of plan_of asked) (fun p => resolve dir (join where_ (solution_name p))) (fun _ => True) problems m m' report.
Proof.
  intros D W ND asked. unfold execute_metric_ff.
  induction problems as [|p problems IH] using rev_ind.
  - exists m, []. split; [reflexivity|apply reported_nil].
  - rewrite map_app in ND. apply NoDup_app_iff in ND as (ND & _ & Dis).
    destruct (IH ND) as (m1 & report & E & Rp). rewrite fold_res_app, E. cbn [bind fold_res fst snd].
    destruct (solve_ff (Abs dir) m1 domain p where_ limit tolerance D) as (m2 & o & E2 & H & C & R & F).
    { cbn. apply W. }
    rewrite E2. cbn [bind]. eexists m2, _. split; [reflexivity|]. cbn [resolve] in H, F.
    apply (reported_snoc _ _ _ _ _ _ m1 m2 _ 1); auto. intros q Iq.
    assert (stem_of q <> stem_of p) as X. { intros X. apply (Dis (stem_of q)); [now apply in_map|rewrite X; now left]. }
    split; [|exact X]. intros X'. apply solution_inj in X'. contradiction.
Qed.
End MetricFF.

(** ** ENHSP *)
Section Enhsp.
Variable process : nat -> command -> outcome_of_run.
Definition unclear (o : outcome) : bool := match o with solver_error => true | _ => false end.

Lemma run_file m c f : dict_get (m_files (fst (run process m c))) f =
  if eq_dec f (resolve (m_cwd m) (cm_solution c)) then ru_solution (process (m_runs m) c) (dict_get (m_files m) (resolve (m_cwd m) (cm_solution c)))
  else dict_get (m_files m) f.
Proof. unfold run. cbn [fst]. rewrite file_put. reflexivity. Qed.

Lemma enhsp_once m c : exists m' o, run_enhsp_process process m c = (m', (negb (unclear o), o)) /\ enhsp_answer (process (m_runs m) c) o /\
  m' = fst (run process m c).
Proof.
  unfold run_enhsp_process. unfold run at 1. cbn [fst snd]. set (r := process (m_runs m) c).
  assert (forall p, p <> "" -> forall t, {contains t p} + {~ contains t p}) as Dc.
  { intros p N t. destruct (in_text p t) eqn:E; [left; now apply in_text_iff|right; now apply in_text_not]. }
  assert (forall b o (m' : machine), b = negb (unclear o) -> enhsp_answer r o -> m' = fst (run process m c) ->
    exists m'' o', (m', (b, o)) = (m'', (negb (unclear o'), o')) /\ enhsp_answer r o' /\ m'' = fst (run process m c)) as Fin.
  { intros b o m' -> A E. exists m', o. auto. }
  destruct (ru_end r) as [| |code] eqn:E.
  - apply Fin; [reflexivity|constructor; congruence|reflexivity].
  - apply Fin; [reflexivity|constructor; congruence|reflexivity].
  - destruct (in_text PROBLEM_SOLVED (ru_stdout r)) eqn:S0.
    { apply Fin; [reflexivity| |reflexivity]. apply (en_plan r code E). apply in_text_iff in S0; [exact S0|discriminate]. }
    assert (~ enhsp_solved r) as NS by (apply in_text_not in S0; [exact S0|discriminate]).
    destruct (in_text NO_SOLUTION_FOR_PROBLEM (ru_stdout r)) eqn:S1.
    { cbn [orb]. apply Fin; [reflexivity| |reflexivity]. apply (en_declared r code E NS). left. apply in_text_iff in S1; [exact S1|discriminate]. }
    destruct (in_text OTHER_NO_SOLUTION_TYPE (ru_stdout r)) eqn:S2.
    { cbn [orb]. apply Fin; [reflexivity| |reflexivity]. apply (en_declared r code E NS). right. left. apply in_text_iff in S2; [exact S2|discriminate]. }
    destruct (in_text ERROR_TYPE_NO_SOLUTION (ru_stderr r)) eqn:S3.
    { cbn [orb]. apply Fin; [reflexivity| |reflexivity]. apply (en_declared r code E NS). right. right. left. apply in_text_iff in S3; [exact S3|discriminate]. }
    cbn [orb]. destruct (in_text GOAL_NOT_REACHABLE (ru_stderr r)) eqn:S4.
    { apply Fin; [reflexivity| |reflexivity]. apply (en_declared r code E NS). right. right. right. apply in_text_iff in S4; [exact S4|discriminate]. }
    apply Fin; [reflexivity| |reflexivity]. apply (en_unclear r code E NS).
    intros [X|[X|[X|X]]]; [apply in_text_not in S1|apply in_text_not in S2|apply in_text_not in S3|apply in_text_not in S4]; try discriminate; contradiction.
Qed.

(** What is known after [k] further runs. *)
Definition runs_done (c : command) (m m' : machine) (k : nat) : Prop :=
  m_runs m' = m_runs m + k /\ m_cwd m' = m_cwd m /\
  dict_get (m_files m') (resolve (m_cwd m) (cm_solution c)) =
    file_after (fun i => ru_solution (process i c)) (m_runs m) k (dict_get (m_files m) (resolve (m_cwd m) (cm_solution c))) /\
  forall f, f <> resolve (m_cwd m) (cm_solution c) -> dict_get (m_files m') f = dict_get (m_files m) f.

Lemma runs_done_0 c m : runs_done c m m 0.
Proof. split; [lia|]. auto. Qed.
Lemma runs_done_S c m k m' : runs_done c (fst (run process m c)) m' k -> runs_done c m m' (S k).
Proof.
  intros (R & C & F & O).
  assert (m_runs (fst (run process m c)) = m_runs m + 1) as R1 by reflexivity.
  assert (m_cwd (fst (run process m c)) = m_cwd m) as C1 by reflexivity.
  rewrite R1, C1 in *. split; [lia|]. split; [exact C|]. split.
  - rewrite F, run_file. unfold file_after. replace (m_runs m + 1) with (S (m_runs m)) by lia. cbn [seq fold_left].
    destruct (eq_dec _ _); [reflexivity|contradiction].
  - intros f N. rewrite O, run_file by exact N. destruct (eq_dec f _); [contradiction|reflexivity].
Qed.

Lemma enhsp_retry n : forall m c o, exists m' o' k, retry_enhsp process n m c (negb (unclear o), o) = (m', o') /\ k <= n /\ runs_done c m m' k /\
  (k = 0 -> o' = o) /\
  (0 < k -> o = solver_error /\ (forall j, j < k - 1 -> enhsp_answer (process (m_runs m + j) c) solver_error) /\ enhsp_answer (process (m_runs m + (k - 1)) c) o') /\
  (k < n -> o' <> solver_error).
Proof.
  induction n; intros m c o.
  - exists m, o, 0. cbn. repeat split; auto; try lia. 
  - cbn [retry_enhsp fst snd]. destruct (unclear o) eqn:U; cbn [negb].
    + assert (o = solver_error) as -> by (destruct o; try discriminate; reflexivity).
      destruct (enhsp_once m c) as (m1 & o1 & E & A & M1). rewrite E.
      destruct (IHn m1 c o1) as (m' & o' & k & E' & L & D & Z0 & P & Q0). rewrite E'.
      exists m', o', (S k). split; [reflexivity|]. split; [lia|]. subst m1. split; [now apply runs_done_S|]. split; [discriminate|].
      assert (m_runs (fst (run process m c)) = m_runs m + 1) as R1 by reflexivity. rewrite R1 in P.
      split; [|intros; apply Q0; lia]. intros _. split; [reflexivity|].
      replace (S k - 1) with k by lia. destruct k.
      * split; [intros j J; lia|]. rewrite (Z0 eq_refl), Nat.add_0_r. exact A.
      * destruct (P ltac:(lia)) as (-> & Pj & Pk). split.
        -- intros j J. destruct j; [rewrite Nat.add_0_r; exact A|].
           specialize (Pj j ltac:(lia)). replace (m_runs m + S j) with (m_runs m + 1 + j) by lia. exact Pj.
        -- replace (m_runs m + S k) with (m_runs m + 1 + (S k - 1)) by lia. exact Pk.
    + exists m, o, 0. split; [reflexivity|]. split; [lia|]. split; [apply runs_done_0|]. split; [auto|]. split; [lia|].
      intros _ ->. discriminate.
Qed.

Lemma solve_enhsp_ok m domain problem where_ limit tolerance :
  let cwd := m_cwd m in
  let asked p := mk_command cwd (absolute cwd domain) (absolute cwd p) (absolute cwd (join where_ (solution_name p))) limit tolerance in
  let file := resolve cwd (join where_ (solution_name problem)) in
  exists m' o k, solve_enhsp process m domain problem where_ limit tolerance = (m', o) /\
    enhsp_handled process asked (m_runs m) problem k o (dict_get (m_files m) file) (dict_get (m_files m') file) /\
    m_cwd m' = cwd /\ m_runs m' = m_runs m + k /\ forall f, f <> file -> dict_get (m_files m') f = dict_get (m_files m) f.
Proof.
  intros cwd asked file. unfold solve_enhsp. fold cwd. change (mk_command _ _ _ _ _ _) with (asked problem).
  assert (negb (unclear solver_error) = false) as U by reflexivity.
  destruct (enhsp_retry 4 m (asked problem) solver_error) as (m' & o & k & E & L & (R & C & F & O) & Z0 & P & Q0).
  rewrite U in E. cbn [retry_enhsp fst snd] in E.
  destruct (enhsp_once m (asked problem)) as (m1 & o1 & E1 & A & M1). rewrite E1 in E |- *.
  exists m', o, k. split; [exact E|].
  assert (0 < k) as K.
  { destruct k; [|lia]. exfalso. apply (Q0 ltac:(lia)). now apply Z0. }
  destruct (P K) as (_ & Pj & Pk). split; [|auto]. split; [|exact F]. split; [lia|]. auto.
Qed.

Lemma execute_enhsp_ok m domain where_ problems limit tolerance : NoDup (map stem_of problems) ->
  let cwd := m_cwd m in
  let asked p := mk_command cwd (absolute cwd domain) (absolute cwd p) (absolute cwd (join where_ (solution_name p))) limit tolerance in
  exists m' report, execute_enhsp process m domain where_ problems limit tolerance = (m', report) /\ m_cwd m' = cwd /\
    reported (enhsp_handled process asked) (fun p => resolve cwd (join where_ (solution_name p))) (fun _ => True) problems m m' report.
Proof.
  intros ND cwd asked. unfold execute_enhsp.
  induction problems as [|p problems IH] using rev_ind.
  - exists m, []. split; [reflexivity|]. split; [reflexivity|apply reported_nil].
  - rewrite map_app in ND. apply NoDup_app_iff in ND as (ND & _ & Dis).
    destruct (IH ND) as (m1 & report & E & C1 & Rp). rewrite fold_left_app, E. cbn [fold_left fst snd].
    destruct (solve_enhsp_ok m1 domain p where_ limit tolerance) as (m2 & o & k & E2 & H & C & R & F).
    rewrite E2. rewrite C1 in H, C, F. eexists m2, _. split; [reflexivity|]. split; [exact C|].
    apply (reported_snoc _ _ _ _ _ _ m1 m2 _ k); auto. intros q Iq.
    assert (stem_of q <> stem_of p) as X. { intros X. apply (Dis (stem_of q)); [now apply in_map|rewrite X; now left]. }
    split; [|exact X]. intros X'. apply solution_inj in X'. contradiction.
Qed.
End Enhsp.

(** ** Fast Downward *)
Section FastDownward.
Variables (directory : list string -> bool) (process : nat -> command -> outcome_of_run).
Variables (sas_name : nat -> string) (sas_text : nat -> option content).

Lemma resolve_join cwd p n : resolve cwd (join p n) = resolve cwd p ++ [n].
Proof. destruct p; cbn; [reflexivity|apply app_assoc]. Qed.

Lemma fd_once dir m domain problem where_ limit tolerance :
  let cwd := m_cwd m in let there := resolve cwd dir in
  let asked p := mk_command there (absolute cwd domain) (absolute cwd p) (absolute cwd (join where_ (solution_name p))) limit 0 in
  let file := resolve cwd (join where_ (solution_name problem)) in
  let sas := there ++ [sas_name (m_runs m)] in
  let r := process (m_runs m) (asked problem) in
  let left := ru_solution r (dict_get (m_files m) file) in
  directory there = true -> directory cwd = true -> file <> sas ->
  forall code, ru_end r = Exit code -> (code = 0%Z -> left <> None) ->
  exists m' o, solve_fast_downward directory process dir sas_name sas_text m domain problem where_ limit tolerance = Ok (m', o) /\
    fd_answer code o /\ m_runs m' = m_runs m + 1 /\ m_cwd m' = match o with ok => cwd | _ => there end /\
    dict_get (m_files m') file = match o with ok => option_map (@removelast string) left | _ => left end /\
    (o = ok -> dict_get (m_files m') sas = None) /\
    forall f, f <> file -> f <> sas -> dict_get (m_files m') f = dict_get (m_files m) f.
Proof.
  intros cwd there asked file sas r left Dt Dc Ns code End W.
  unfold solve_fast_downward, chdir. fold cwd. fold there. rewrite Dt. cbn [bind m_cwd m_runs m_files].
  change (mk_command _ _ _ _ _ _) with (asked problem).
  unfold run. cbn [m_runs]. fold r. rewrite End.
  set (m1 := put (started _) _ _).
  set (m2 := match sas_text (m_runs m) with Some text => put m1 (Rel [sas_name (m_runs m)]) (Some text) | None => m1 end).
  assert (m_cwd m1 = there) as C1 by reflexivity.
  assert (m_cwd m2 = there /\ m_runs m2 = m_runs m + 1) as (C2 & R2) by (unfold m2; destruct (sas_text (m_runs m)); split; reflexivity).
  assert (dict_get (m_files m1) file = left) as F1.
  { unfold m1. rewrite file_put. change (resolve _ (cm_solution (asked problem))) with file.
    match goal with |- (if ?d then _ else _) = _ => destruct d end; [reflexivity|congruence]. }
  assert (forall f, f <> file -> dict_get (m_files m1) f = dict_get (m_files m) f) as O1.
  { intros f N. unfold m1. rewrite file_put. change (resolve _ (cm_solution (asked problem))) with file.
    match goal with |- (if ?d then _ else _) = _ => destruct d end; [congruence|reflexivity]. }
  assert (forall f, f <> sas -> dict_get (m_files m2) f = dict_get (m_files m1) f) as O2.
  { intros f N. unfold m2. destruct (sas_text (m_runs m)); [|reflexivity]. rewrite file_put. rewrite C1. cbn [resolve]. fold sas.
    match goal with |- (if ?d then _ else _) = _ => destruct d end; [congruence|reflexivity]. }
  destruct (code =? 0)%Z eqn:Z0.
  - apply Z.eqb_eq in Z0 as ->. cbn [resolve]. rewrite Dc. cbn [bind]. unfold remove_cost_from_file, file_at. cbn [m_cwd m_files].
    fold file. rewrite (O2 file Ns), F1. destruct left as [text|] eqn:L; [|now destruct (W eq_refl)]. cbn [bind].
    eexists _, ok. split; [reflexivity|]. split; [constructor|]. split; [exact R2|]. split; [reflexivity|]. unfold unlink.
    assert (resolve cwd (join dir (sas_name (m_runs m))) = sas) as Es by (apply resolve_join).
    split; [|split].
    + rewrite !file_put. cbn [m_cwd put]. rewrite Es. fold file.
      repeat match goal with |- context [if ?d then _ else _] => destruct d end; try congruence. reflexivity.
    + intros _. rewrite !file_put. cbn [m_cwd put]. rewrite Es.
      repeat match goal with |- context [if ?d then _ else _] => destruct d end; congruence.
    + intros f Nf Nfs. rewrite !file_put. cbn [m_cwd put m_files]. rewrite Es. fold file.
      repeat match goal with |- context [if ?d then _ else _] => destruct d end; try congruence. rewrite O2, O1 by assumption. reflexivity.
  - apply Z.eqb_neq in Z0.
    assert (forall o, fd_answer code o -> o <> ok -> exists m' o', Ok (m2, o) = Ok (m', o') /\ fd_answer code o' /\ m_runs m' = m_runs m + 1 /\
              m_cwd m' = match o' with ok => cwd | _ => there end /\
              dict_get (m_files m') file = match o' with ok => option_map (@removelast string) left | _ => left end /\
              (o' = ok -> dict_get (m_files m') sas = None) /\
              forall f, f <> file -> f <> sas -> dict_get (m_files m') f = dict_get (m_files m) f) as Fin.
    { intros o A No. exists m2, o. split; [reflexivity|]. split; [exact A|]. split; [exact R2|].
      split; [destruct o; congruence|]. split; [rewrite (O2 file Ns), F1; destruct o; congruence|]. split; [congruence|].
      intros f Nf Nfs. rewrite O2, O1 by assumption. reflexivity. }
    destruct (memb code [21; 23; 247]%Z) eqn:M1.
    { apply Fin; [|discriminate]. constructor. now apply memb_In. }
    destruct (memb code [11; 12]%Z) eqn:M2.
    { apply Fin; [|discriminate]. constructor. now apply memb_In. }
    apply Fin; [|discriminate]. constructor.
    assert (forall l, memb code l = false -> ~ In code l) as NM by (intros l E X; apply memb_In in X; congruence).
    intros [X|X]; [congruence|]. apply (NM _ M1). apply (in_app_iff [21; 23; 247]%Z [11; 12]%Z) in X as [X|X]; [exact X|].
    destruct (NM _ M2 X).
Qed.

Section All.
Variable dir : list string.
Variables (domain where_ : path) (limit : nat).
Let asked p := mk_command dir (absolute dir domain) (absolute dir p) (absolute dir (join where_ (solution_name p))) limit 0.
Let file p := resolve dir (join where_ (solution_name p)).
Hypotheses (Dt : directory dir = true) (W : writes_solutions process) (AE : always_ends process).
Let temporary (f : list string) : Prop := exists j, f = dir ++ [sas_name j].

Lemma fd_step m problem tolerance : m_cwd m = dir -> ~ temporary (file problem) ->
  exists m' o, solve_fast_downward directory process (Abs dir) sas_name sas_text m domain problem where_ limit tolerance = Ok (m', o) /\
    fd_ends process asked problem (m_runs m) o /\ m_cwd m' = dir /\ m_runs m' = m_runs m + 1 /\
    (let left := ru_solution (process (m_runs m) (asked problem)) (dict_get (m_files m) (file problem)) in
     dict_get (m_files m') (file problem) = match o with ok => option_map (@removelast string) left | _ => left end) /\
    forall f, f <> file problem -> ~ temporary f -> dict_get (m_files m') f = dict_get (m_files m) f.
Proof.
  intros C NT. destruct (AE (m_runs m) (asked problem)) as (code & End).
  destruct (fd_once (Abs dir) m domain problem where_ limit tolerance) with (code := code) as (m' & o & E & A & R & C' & F & S0 & O).
  - exact Dt.
  - rewrite C. exact Dt.
  - rewrite C. intros X. apply NT. exists (m_runs m). exact X.
  - rewrite C. exact End.
  - rewrite C. intros ->. apply W. exact End.
  - rewrite C in *. exists m', o. split; [exact E|]. split; [exists code; auto|]. split; [destruct o; exact C'|]. split; [exact R|].
    split; [exact F|]. intros f N N'. apply O; [exact N|]. intros ->. apply N'. exists (m_runs m). reflexivity.
Qed.

Lemma fd_retry problem tolerance : ~ temporary (file problem) -> forall n m o, m_cwd m = dir ->
  exists m' o' k, retry_fast_downward directory process (Abs dir) sas_name sas_text n m o domain problem where_ limit tolerance = Ok (m', o') /\ k <= n /\
    m_cwd m' = dir /\ m_runs m' = m_runs m + k /\
    (k = 0 -> o' = o /\ m' = m) /\
    (0 < k -> o = solver_error /\ (forall j, j < k - 1 -> fd_ends process asked problem (m_runs m + j) solver_error) /\ fd_ends process asked problem (m_runs m + (k - 1)) o' /\
       (let left := file_after (fun i => ru_solution (process i (asked problem))) (m_runs m) k (dict_get (m_files m) (file problem)) in
        dict_get (m_files m') (file problem) = match o' with ok => option_map (@removelast string) left | _ => left end)) /\
    (k < n -> o' <> solver_error) /\
    forall f, f <> file problem -> ~ temporary f -> dict_get (m_files m') f = dict_get (m_files m) f.
Proof.
  intros NT. induction n; intros m o C.
  - exists m, o, 0. cbn. split; [reflexivity|]. repeat split; auto; lia.
  - assert (o = solver_error \/ o <> solver_error) as [->|No] by (destruct o; auto; right; discriminate).
    + cbn [retry_fast_downward]. destruct (fd_step m problem tolerance C NT) as (m1 & o1 & E & A & C1 & R1 & F1 & O1). rewrite E. cbn [bind].
      destruct (IHn m1 o1 C1) as (m' & o' & k & E' & L & C' & R' & Z0 & P & Q0 & O'). rewrite E'.
      exists m', o', (S k). split; [reflexivity|]. split; [lia|]. split; [exact C'|]. split; [lia|]. split; [discriminate|]. split; [|split].
      * intros _. split; [reflexivity|]. replace (S k - 1) with k by lia. destruct k.
        -- destruct (Z0 eq_refl) as (-> & ->). split; [intros j J; lia|]. rewrite Nat.add_0_r. split; [exact A|]. exact F1.
        -- destruct (P ltac:(lia)) as (-> & Pj & Pk & Pf). rewrite R1 in *. split; [|split].
           ++ intros j J. destruct j; [rewrite Nat.add_0_r; exact A|].
              specialize (Pj j ltac:(lia)). replace (m_runs m + S j) with (m_runs m + 1 + j) by lia. exact Pj.
           ++ replace (m_runs m + S k) with (m_runs m + 1 + (S k - 1)) by lia. exact Pk.
           ++ rewrite F1 in Pf. unfold file_after in *. replace (m_runs m + 1) with (S (m_runs m)) in Pf by lia. exact Pf.
      * intros K. apply Q0. lia.
      * intros f N N'. rewrite O', O1 by assumption. reflexivity.
    + exists m, o, 0. split; [destruct o; try reflexivity; contradiction|]. repeat split; auto; lia.
Qed.

Lemma execute_fd m problems tolerance : NoDup (map stem_of problems) -> (forall p, In p problems -> ~ temporary (file p)) ->
  exists m' report, execute_fast_downward directory process (Abs dir) sas_name sas_text m domain where_ problems limit tolerance = Ok (m', report) /\
    m_cwd m' = dir /\ reported (fd_handled process asked) file (fun f => ~ temporary f) problems m m' report.
Proof.
  intros ND NT. unfold execute_fast_downward, chdir. cbn [resolve]. rewrite Dt. cbn [bind].
  set (m0 := mk_machine dir (m_files m) (m_runs m)).
  assert (forall m' report, reported (fd_handled process asked) file (fun f => ~ temporary f) problems m0 m' report ->
            reported (fd_handled process asked) file (fun f => ~ temporary f) problems m m' report) as Start by (intros m' report H; exact H).
  enough (exists m' report,
    fold_res (fun (ms : machine * list (string * string)) problem =>
              let* (m, o) := solve_fast_downward directory process (Abs dir) sas_name sas_text (fst ms) domain problem where_ limit (1 # 10) in
              let* (m, o) := retry_fast_downward directory process (Abs dir) sas_name sas_text 3 m o domain problem where_ limit (1 # 10) in
              Ok (m, dict_set (snd ms) (stem_of problem) (outcome_name o))) problems (m0, []) = Ok (m', report) /\
    m_cwd m' = dir /\ reported (fd_handled process asked) file (fun f => ~ temporary f) problems m0 m' report) as (m' & report & E & C & H)
    by (exists m', report; auto).
  clear Start. induction problems as [|p problems IH] using rev_ind.
  - exists m0, []. split; [reflexivity|]. split; [reflexivity|apply reported_nil].
  - rewrite map_app in ND. apply NoDup_app_iff in ND as (ND & _ & Dis).
    destruct (IH ND) as (m1 & report & E & C1 & Rp); [intros q Iq; apply NT; rewrite in_app_iff; auto|].
    rewrite fold_res_app, E. cbn [bind fold_res fst snd].
    assert (~ temporary (file p)) as Np by (apply NT; rewrite in_app_iff; right; now left).
    destruct (fd_retry p (1 # 10) Np 4 m1 solver_error C1) as (m2 & o & k & E2 & L & C2 & R2 & Z0 & P & Q0 & O2).
    change (retry_fast_downward directory process (Abs dir) sas_name sas_text 4 m1 solver_error domain p where_ limit (1 # 10)) with
      (let* (m, o) := solve_fast_downward directory process (Abs dir) sas_name sas_text m1 domain p where_ limit (1 # 10) in
       retry_fast_downward directory process (Abs dir) sas_name sas_text 3 m o domain p where_ limit (1 # 10)) in E2.
    destruct (solve_fast_downward directory process (Abs dir) sas_name sas_text m1 domain p where_ limit (1 # 10)) as [[m3 o3]|] eqn:E3; [|discriminate].
    cbn [bind] in E2 |- *. rewrite E2. cbn [bind]. eexists m2, _. split; [reflexivity|]. split; [exact C2|].
    assert (0 < k) as K.
    { destruct k; [|lia]. exfalso. apply (Q0 ltac:(lia)). now apply Z0. }
    destruct (P K) as (_ & Pj & Pk & Pf).
    apply (reported_snoc _ _ _ _ _ _ m1 m2 _ k); auto.
    + intros q Iq.
      assert (stem_of q <> stem_of p) as X. { intros X. apply (Dis (stem_of q)); [now apply in_map|rewrite X; now left]. }
      split; [|exact X]. intros X'. apply solution_inj in X'. contradiction.
    + intros q Iq. apply NT. rewrite in_app_iff; auto.
    + split; [|exact Pf]. split; [lia|]. auto.
Qed.
End All.
End FastDownward.
