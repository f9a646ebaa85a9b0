(** * Proofs: a job of the numeric experiments *)
From Coq Require Import Lia.
From Verif Require Import CluProofs CresProofs CollectProofs CollectFinal CrossProofs LstatProofs JobModel JobSpec PreludeProofs.
Open Scope string_scope. Open Scope list_scope. Open Scope nat_scope.

Lemma dict_set_twice {A} (d : list (string * A)) k a b : dict_set (dict_set d k a) k b = dict_set d k b.
Proof.
  induction d as [|[k' v'] d IH]; cbn [dict_set]; [destruct (eq_dec k k); congruence|]. destruct (eq_dec k k') as [->|N] eqn:E; cbn [dict_set]; rewrite ?E; [destruct (eq_dec k' k'); congruence|]. rewrite IH. reflexivity.
Qed.
Lemma set_only {A} (d : list (string * A)) k v : only_set d (dict_set d k v) k v.
Proof. split; [apply dict_get_set_same|]. intros n N. apply dict_get_set_other. exact N. Qed.
Lemma sets_of args fold version n sets : numeric_runner args = Ok (fold, version, n, sets) -> sets = DfoldSpec.iteration_name fold version n /\ In version [3; 5; 15; 19; 20; 21].
Proof.
  unfold numeric_runner. destruct (negb (forallb _ _)); [discriminate|]. destruct (required args "working_directory_path"); [|discriminate]. cbn [bind]. destruct (required args "domain_file_name"); [|discriminate]. cbn [bind].
  destruct (required args "learning_algorithm") as [x1|]; [|discriminate]. cbn [bind]. destruct (int x1) as [v|]; [|discriminate]. cbn [bind]. destruct (memb v _) eqn:M; [|discriminate]. cbn [negb]. destruct (required args "fold_number") as [x2|]; [|discriminate]. cbn [bind].
  destruct (int x2) as [f|]; [|discriminate]. cbn [bind]. destruct (required args "iteration_number") as [x3|]; [|discriminate]. cbn [bind]. destruct (int x3) as [m|]; [|discriminate]. cbn [bind]. intros H. apply Ok_inj in H. injection H as <- <- <- <-.
  split; [reflexivity|]. apply memb_In. exact M.
Qed.
Lemma job_file_name domain_name alg fold n k : In k job_kinds -> job_file domain_name alg fold n k = name_of domain_name (mk_subject k alg fold (Some n)).
Proof. intros [<-|[<-|[<-|[]]]]; unfold job_file, name_of, solving_file, numeric_file, action_stats_file; cbn [s_kind s_alg s_fold s_iteration]; rewrite ?app_r; reflexivity. Qed.
Lemma write_frame {V} (sh : V -> string) fields rs name d n : n <> name -> dict_get (fst (write_csv V sh fields rs name d)) n = dict_get d n.
Proof. intros N. unfold write_csv. destruct (write_lines _ _ _ _) as [ls e]. cbn [fst]. apply dict_get_set_other. exact N. Qed.
Lemma then_frame (x : directory * option exc) f name : (forall d, dict_get (fst (f d)) name = dict_get d name) -> dict_get (fst (and_then x f)) name = dict_get (fst x) name.
Proof. intros F. unfold and_then. destruct (snd x); [reflexivity|apply F]. Qed.

Section Job.
Variables (domain obs : Type).
Variables (parse_partial : string -> res domain) (parse_observation : domain -> string -> string -> res obs).
Variable learn : nat -> domain -> list obs -> res (domain * option learning_report).
Variable mine : files -> res (domain * option learning_report).
Variables (to_pddl title : domain -> string) (actions_of : domain -> domain_actions) (view : obs -> observation).
Variable validate : string -> files -> string -> files -> list obs -> string -> res (list (string * value)).
Variables (data : Type) (init_calculator : files -> res data) (mined_calculator : files -> files -> res data).
Variable measure : string -> data -> string -> nat -> string -> res (rows value).
Variable matching : files -> list string.
Variables (to_float : string -> res Q) (pb_literals pb_functions : action -> nat) (show : value -> string).
Variables (domain_name : string) (model : domain_actions) (mined_model : files -> domain_actions) (domain_file_name : string).
Variable abort : bool.
Notation run_fold_iteration := (run_fold_iteration domain obs parse_partial parse_observation learn mine to_pddl title actions_of view validate data init_calculator mined_calculator measure matching
  to_float pb_literals pb_functions show domain_name model mined_model domain_file_name abort).
Notation run_job := (run_job domain obs parse_partial parse_observation learn mine to_pddl title actions_of view validate data init_calculator mined_calculator measure matching
  to_float pb_literals pb_functions show domain_name model mined_model domain_file_name abort).
Notation run_jobs := (run_jobs domain obs parse_partial parse_observation learn mine to_pddl title actions_of view validate data init_calculator mined_calculator measure matching
  to_float pb_literals pb_functions show domain_name model mined_model domain_file_name abort).
Notation answered := (answered domain obs parse_partial parse_observation learn mine to_pddl validate data init_calculator mined_calculator measure matching to_float model mined_model domain_file_name abort).
Notation writable := (writable domain obs actions_of).
Notation right_actions := (right_actions domain obs actions_of view pb_literals pb_functions domain_name).
Notation job_done := (job_done domain obs to_pddl title show domain_name domain_file_name).
Notation own_files := (own_files domain_name domain_file_name).

(** ** A job for which the tools work *)
Lemma collected_observations train partial used :
  Forall2 (fun x o => exists p t, dict_get train (x ++ ".pddl")%string = Some p /\ dict_get train (x ++ ".trajectory")%string = Some t /\ parse_observation partial p t = Ok o) (matching train) used ->
  collect_observations domain obs parse_observation matching train partial = Ok used.
Proof.
  unfold collect_observations. induction 1 as [|x o l os (p & t & P & T & O) F IH]; [reflexivity|]. cbn [map_res]. unfold read, problem_file, trajectory_file in *. rewrite P, T. cbn [bind]. rewrite O. cbn [bind]. rewrite IH. reflexivity.
Qed.
(** The directory after the export *)
Definition exported_files (alg : string) (fold n : nat) (a : answer domain obs) (actions : list row) (d : directory) : directory :=
  fold_left (fun d (kr : kind * list row) => dict_set d (job_file domain_name alg fold n (fst kr)) (mk_csv (columns_of (fst kr)) (map (line_of show (columns_of (fst kr))) (snd kr))))
    [(Solving, an_solving _ _ a); (Numeric, an_numeric _ _ a); (Actions, actions)] d.
Definition after (fold version n : nat) (alg : string) (a : answer domain obs) (actions : list row) (ws : workspace) : workspace :=
  let sets := DfoldSpec.iteration_name fold version n in
  mk_ws (ws_train ws) (dict_set (ws_test ws) sets (dict_set (listed (ws_test ws) sets) domain_file_name (to_pddl (an_learned _ _ a)))) (ws_eval ws)
    (exported_files alg fold n a actions (ws_results ws))
    (dict_set (ws_backups ws) (job_backup_file domain title alg fold (an_learned _ _ a) (length (an_used _ _ a))) (to_pddl (an_learned _ _ a))).
Lemma listed_eval (l : list (string * files)) (name : string) (eval : files) : dict_get l name = Some eval \/ dict_get l name = None /\ eval = [] -> listed l name = eval.
Proof. unfold listed. intros [E|[E ->]]; rewrite E; reflexivity. Qed.
Definition actions_for (alg : string) (a : answer domain obs) : list row :=
  m_action (fst (add_to_action_stats to_float pb_literals pb_functions alg domain_name (an_reference _ _ a) (map view (an_used _ _ a)) (actions_of (an_learned _ _ a)) (Some (an_report _ _ a)) default_policy new_manager)).
Lemma iteration_ok ws fold version n alg a : algorithm_type version = Ok alg -> answered ws fold version n alg a -> writable a ->
  run_fold_iteration fold version n (DfoldSpec.iteration_name fold version n) ws = (after fold version n alg a (actions_for alg a) ws, None) /\ right_actions alg a (actions_for alg a).
Proof.
  intros AL (train & test & eval & text & partial & calc & time & TR & TE & EV & TX & PP & OB & LE & LT & TF & VA & ME) (WR & WL & WS & WN). destruct a as [used learned report qtime reference solving numeric]. unfold actions_for. cbn [an_used an_learned an_report an_time an_reference an_solving an_numeric] in *.
  destruct (add_ok to_float pb_literals pb_functions alg domain_name reference WR (map view used) (actions_of learned) (Some report) default_policy qtime new_manager WL (ex_intro _ report (ex_intro _ time (conj eq_refl (conj LT TF))))) as (rs & AD & AF).
  rewrite AD. cbn [fst m_action new_manager app]. split; [|exact AF]. unfold JobModel.run_fold_iteration, stopping. rewrite AL, (listed_eval _ _ _ EV). destruct LE as ((c & IC) & LE). rewrite IC. unfold directory_in at 1. rewrite TR. unfold read. rewrite TX. cbn [bind]. rewrite PP.
  rewrite (collected_observations train partial used OB).
  assert (AP : apply_learning_algorithm domain obs learn mine data mined_calculator model mined_model version c train eval partial used = Ok (learned, Some report, calc, reference)).
  { unfold apply_learning_algorithm. destruct LE as [(V & IC' & L & ->)|(-> & MC & MI & ->)].
    - rewrite IC in IC'. apply Ok_inj in IC'. subst c. destruct V as [-> | ->]; cbn [Nat.eqb]; [change (memb 3 [3; 19]) with true|change (memb 19 [3; 19]) with true]; cbv iota; rewrite L; reflexivity.
    - cbn [Nat.eqb]. rewrite MC. cbn [bind]. rewrite MI. reflexivity. }
  rewrite AP. rewrite AD. cbn [learning_time]. rewrite LT. unfold directory_in. rewrite TE.
  assert (SV : (if abort then Ok [] else let* row := validate alg train (to_pddl learned) (dict_set test domain_file_name (to_pddl learned)) used time in Ok [row]) = Ok solving).
  { destruct abort; [rewrite VA; reflexivity|]. destruct VA as (row & -> & VA). rewrite VA. reflexivity. }
  rewrite SV. fold default_policy in ME. rewrite ME. unfold export_results, export_domain_and_backup. cbn [ws_results].
  unfold write_statistics. rewrite (write_csv_ok show SOLVING_STATISTICS solving _ _ WS). unfold and_then at 2. cbn [snd fst]. unfold export_numeric_performance. rewrite (write_csv_ok show NUMERIC_PERFORMANCE_STATS numeric _ _ WN). unfold and_then. cbn [snd fst].
  unfold export_action_learning_statistics. cbn [m_action new_manager app]. rewrite (write_csv_ok show LEARNED_ACTIONS_STATS_COLUMNS rs); [|exact (row_of_incl pb_literals pb_functions alg domain_name reference default_policy _ _ _ _ _ AF)].
  unfold after, exported_files, listed. cbn [an_used an_learned an_solving an_numeric ws_train ws_test ws_eval ws_backups fold_left fst snd columns_of]. rewrite TE.
  rewrite !job_file_name by (cbn; tauto). reflexivity.
Qed.
Lemma after_done ws fold version n alg a actions test : dict_get (ws_test ws) (DfoldSpec.iteration_name fold version n) = Some test -> job_done fold version n alg a actions ws (after fold version n alg a actions ws).
Proof.
  intros TE. unfold JobSpec.job_done, after. cbn [ws_train ws_test ws_eval ws_results ws_backups]. split; [reflexivity|]. split; [reflexivity|]. split.
  { exists test. eexists. split; [exact TE|]. unfold listed. rewrite TE. split; [apply set_only|]. apply set_only. }
  split; [apply set_only|]. unfold exported_files. cbn [fold_left fst snd].
  assert (INJ : forall k k', In k job_kinds -> In k' job_kinds -> k <> k' -> job_file domain_name alg fold n k <> job_file domain_name alg fold n k').
  { intros k k' K K' D E. rewrite !job_file_name in E by assumption. apply name_inj in E. injection E as E. contradiction. }
  split.
  - intros k rs [I|[I|[I|[]]]]; injection I as <- <-; repeat (first [rewrite dict_get_set_same; reflexivity|rewrite dict_get_set_other by (apply INJ; [cbn; tauto|cbn; tauto|discriminate])]).
  - intros name N. cbn [map In job_kinds] in N. rewrite !dict_get_set_other by (intros ->; apply N; tauto). reflexivity.
Qed.
Theorem job_ok args ws fold version n sets alg a : numeric_runner args = Ok (fold, version, n, sets) -> algorithm_type version = Ok alg -> answered ws fold version n alg a -> writable a ->
  exists actions ws', run_job args ws = (ws', None) /\ right_actions alg a actions /\ job_done fold version n alg a actions ws ws'.
Proof.
  intros NR AL AN WR. destruct (sets_of _ _ _ _ _ NR) as (-> & _). destruct (iteration_ok ws fold version n alg a AL AN WR) as (E & RA). exists (actions_for alg a). eexists. split; [unfold JobModel.run_job, stopping; rewrite NR; exact E|]. split; [exact RA|].
  destruct AN as (train & test & _ & _ & _ & _ & _ & _ & TE & _). exact (after_done ws fold version n alg a _ test TE).
Qed.

(** ** A job that ends without an error *)
Lemma rows_stop alg reference learned report policy used l c rs x : snd (fold_left (fun acc (na : string * action) => let '(c, rows, e) := acc in match e with Some _ => acc | None =>
    match action_row to_float pb_literals pb_functions alg domain_name reference learned report policy used c (fst na) (snd na) with Ok (c, r) => (c, rows ++ [r], None) | Err x => (c, rows, Some x) end end) l (c, rs, Some x)) = Some x.
Proof. induction l as [|na l IH]; [reflexivity|exact IH]. Qed.
Lemma add_honest alg reference used learned report policy m : reference <> [] -> snd (add_to_action_stats to_float pb_literals pb_functions alg domain_name reference used learned report policy m) = None ->
  exists r t q, report = Some r /\ dict_get r "learning_time" = Some t /\ to_float t = Ok q.
Proof.
  intros NE. unfold add_to_action_stats. destruct reference as [|na l]; [congruence|]. cbn [fold_left].
  assert (K : forall z, action_row to_float pb_literals pb_functions alg domain_name (na :: l) learned report policy used new_calculator (fst na) (snd na) = Ok z -> exists r t q, report = Some r /\ dict_get r "learning_time" = Some t /\ to_float t = Ok q).
  { intros z. unfold action_row, add_default_statistic_fields. destruct report as [r|]; [|destruct (dict_get learned (fst na)); discriminate]. cbn [bind]. destruct (dict_get r "learning_time") as [t|] eqn:T; [|destruct (dict_get learned (fst na)); discriminate]. destruct (to_float t) as [q|] eqn:Q; [|destruct (dict_get learned (fst na)); discriminate].
    intros _. exists r, t, q. auto. }
  destruct (action_row _ _ _ _ _ _ _ _ _ _ _ (fst na) (snd na)) as [z|x].
  - intros _. exact (K z eq_refl).
  - match goal with |- context [fold_left ?f l ?i] => pose proof (rows_stop alg (na :: l) learned report policy used l new_calculator [] x) as S; destruct (fold_left f l i) as [[c' rs'] e'] end. cbn [snd] in *. intros ->. discriminate S.
Qed.
Lemma lines_honest {V} (sh : V -> string) fields rs : snd (write_lines V sh fields rs) = None -> Forall (fun r => incl (dict_keys r) fields) rs.
Proof.
  induction rs as [|r rs IH]; [constructor|]. cbn [write_lines]. unfold write_row. destruct (forallb (fun k => memb k fields) (dict_keys r)) eqn:F; [|discriminate]. destruct (write_lines V sh fields rs) as [ls e]. cbn [snd] in *. intros E. constructor; [|apply IH; exact E].
  intros k I. rewrite forallb_forall in F. apply memb_In. apply F. exact I.
Qed.
Lemma write_honest {V} (sh : V -> string) fields rs name d : snd (write_csv V sh fields rs name d) = None -> Forall (fun r => incl (dict_keys r) fields) rs.
Proof. unfold write_csv. intros E. apply (lines_honest sh). destruct (write_lines V sh fields rs) as [ls e]. exact E. Qed.
Lemma then_honest (x : directory * option exc) f : snd (and_then x f) = None -> snd x = None /\ snd (f (fst x)) = None.
Proof. unfold and_then. destruct (snd x) as [e|] eqn:E; [rewrite E; discriminate|auto]. Qed.
Lemma observations_honest train partial used : collect_observations domain obs parse_observation matching train partial = Ok used ->
  Forall2 (fun x o => exists p t, dict_get train (x ++ ".pddl")%string = Some p /\ dict_get train (x ++ ".trajectory")%string = Some t /\ parse_observation partial p t = Ok o) (matching train) used.
Proof.
  unfold collect_observations. revert used. induction (matching train) as [|x l IH]; intros used E; [apply Ok_inj in E; subst used; constructor|]. cbn [map_res] in E. unfold read, problem_file, trajectory_file in E, IH.
  destruct (dict_get train (x ++ ".pddl")%string) as [p|] eqn:P; [|discriminate E]. cbn [bind] in E. destruct (dict_get train (x ++ ".trajectory")%string) as [t|] eqn:T; [|discriminate E]. cbn [bind] in E. destruct (parse_observation partial p t) as [o|] eqn:O; [|discriminate E]. cbn [bind] in E.
  destruct (map_res _ l) as [os|] eqn:M; [|discriminate E]. cbn [bind] in E. apply Ok_inj in E. subst used. constructor; [exists p, t; auto|]. apply IH. reflexivity.
Qed.
Theorem job_honest args ws ws' : model <> [] -> (forall train, mined_model train <> []) -> run_job args ws = (ws', None) ->
  exists fold version n sets alg a, numeric_runner args = Ok (fold, version, n, sets) /\ algorithm_type version = Ok alg /\ answered ws fold version n alg a /\
    (well_named (an_reference _ _ a) -> well_named (actions_of (an_learned _ _ a)) -> exists actions, right_actions alg a actions /\ job_done fold version n alg a actions ws ws').
Proof.
  intros NM NMM E. pose proof E as RUN. unfold JobModel.run_job, stopping in E. destruct (numeric_runner args) as [[[[fold version] n] sets]|] eqn:NR; [|discriminate E]. destruct (sets_of _ _ _ _ _ NR) as (-> & _).
  set (SETS := DfoldSpec.iteration_name fold version n) in *.
  unfold JobModel.run_fold_iteration, stopping in E. destruct (algorithm_type version) as [alg|] eqn:AL; [|discriminate E]. destruct (init_calculator _) as [calc|] eqn:IC; [|discriminate E].
  unfold directory_in at 1 in E. destruct (dict_get (ws_train ws) SETS) as [train|] eqn:TR; [|discriminate E]. unfold read in E at 1. destruct (dict_get train domain_file_name) as [text|] eqn:TX; [|discriminate E]. cbn [bind] in E. destruct (parse_partial text) as [partial|] eqn:PP; [|discriminate E].
  destruct (collect_observations _ _ _ _ _ _) as [used|] eqn:CO; [|discriminate E]. destruct (apply_learning_algorithm _ _ _ _ _ _ _ _ _ _ _ _ _ _) as [[[[learned report] calc'] reference]|] eqn:AP; [|discriminate E].
  assert (LE : reference <> [] /\ forall r, report = Some r -> learned_with domain obs learn mine data init_calculator mined_calculator model mined_model version train (listed (ws_eval ws) ("fold_" ++ decimal fold)) partial used learned r calc' reference).
  { unfold apply_learning_algorithm in AP. destruct (version =? 5) eqn:V5.
    - destruct (mined_calculator _ _) as [c2|] eqn:MC; [|discriminate AP]. cbn [bind] in AP. destruct (mine train) as [[l2 r2]|] eqn:MI; [|discriminate AP]. cbn [bind] in AP. apply Ok_inj in AP. injection AP as -> -> -> <-. split; [apply NMM|]. intros r ->. split; [eexists; exact IC|]. right. apply Nat.eqb_eq in V5. auto.
    - destruct (memb version [3; 19]) eqn:V; [|discriminate AP]. destruct (learn version partial used) as [[l2 r2]|] eqn:LL; [|discriminate AP]. cbn [bind] in AP. apply Ok_inj in AP. injection AP as -> -> -> <-. split; [exact NM|]. intros r ->. split; [eexists; exact IC|]. left. apply memb_In in V. split; [cbn in V; intuition|]. auto. }
  destruct LE as (NR' & LE). destruct (add_to_action_stats _ _ _ _ _ _ _ _ _ _ _) as [m e] eqn:AD. destruct e as [e|]; [discriminate E|].
  destruct (add_honest alg reference (map view used) (actions_of learned) report default_policy new_manager NR') as (r & time & q & -> & LT & TF); [rewrite AD; reflexivity|]. cbn [learning_time] in E. rewrite LT in E. specialize (LE r eq_refl).
  unfold directory_in in E. destruct (dict_get (ws_test ws) SETS) as [test|] eqn:TE; [|discriminate E].
  match type of E with context [match (if abort then ?x else ?y) with _ => _ end] => destruct (if abort then x else y) as [solving|] eqn:SV end; [|discriminate E].
  destruct (measure _ _ _ _ _) as [numeric|] eqn:ME; [|discriminate E]. destruct (export_results _ _ _ _ _ _ _ _ _) as [d e'] eqn:EX. injection E as _ ->.
  exists fold, version, n, SETS, alg, (mk_answer domain obs used learned r q reference solving numeric). split; [reflexivity|]. split; [exact AL|].
  assert (AN : answered ws fold version n alg (mk_answer domain obs used learned r q reference solving numeric)).
  { exists train, test, (listed (ws_eval ws) ("fold_" ++ decimal fold)), text, partial, calc', time. cbn [an_used an_learned an_report an_time an_reference an_solving an_numeric]. split; [exact TR|]. split; [exact TE|].
    split; [unfold listed; destruct (dict_get (ws_eval ws) _); auto|]. split; [exact TX|]. split; [exact PP|]. split; [apply observations_honest; exact CO|]. split; [exact LE|]. split; [exact LT|]. split; [exact TF|]. split; [|exact ME].
    destruct abort; [apply Ok_inj in SV; auto|]. destruct (validate _ _ _ _ _ _) as [row|] eqn:VA; [|discriminate SV]. cbn [bind] in SV. apply Ok_inj in SV. exists row. auto. }
  split; [exact AN|]. cbn [an_reference an_learned]. intros W1 W2.
  assert (WR : writable (mk_answer domain obs used learned r q reference solving numeric)).
  { split; [exact W1|]. split; [exact W2|]. cbn [an_solving an_numeric]. unfold export_results in EX. assert (X : snd (d, @None exc) = None) by reflexivity. rewrite <- EX in X. apply then_honest in X. destruct X as (X & _). apply then_honest in X. destruct X as (X & Y). split; [exact (write_honest show _ _ _ _ X)|exact (write_honest show _ _ _ _ Y)]. }
  destruct (job_ok args ws fold version n SETS alg _ NR AL AN WR) as (actions & ws2 & R2 & RA & JD). rewrite RUN in R2. injection R2 as <-. exists actions. auto.
Qed.

(** ** Any job *)
Lemma export_frame alg fold n solving numeric m d name : ~ In name (map (job_file domain_name alg fold n) job_kinds) -> dict_get (fst (export_results show domain_name alg fold n solving numeric m d)) name = dict_get d name.
Proof.
  intros N. cbn [map job_kinds In] in N. rewrite !job_file_name in N by (cbn; tauto). unfold export_results. rewrite then_frame; [rewrite then_frame|]; [apply write_frame|intros d'; apply write_frame|intros d'; apply write_frame]; intros ->; apply N; unfold name_of; cbn [s_kind s_alg s_fold s_iteration]; tauto.
Qed.
Lemma own_refl fold version n alg ws : own_files fold version n alg ws ws.
Proof. split; [reflexivity|]. split; [reflexivity|]. do 2 (split; [reflexivity|]). split; left; reflexivity. Qed.
Lemma iteration_own ws fold version n alg : algorithm_type version = Ok alg -> own_files fold version n alg ws (fst (run_fold_iteration fold version n (DfoldSpec.iteration_name fold version n) ws)).
Proof.
  intros AL. unfold JobModel.run_fold_iteration, stopping. rewrite AL. set (sets := DfoldSpec.iteration_name fold version n).
  destruct (init_calculator _) as [calc|]; [|apply own_refl]. destruct (directory_in (ws_train ws) sets) as [train|]; [|apply own_refl]. destruct (let* t := _ in _) as [partial|]; [|apply own_refl]. destruct (collect_observations _ _ _ _ _ _) as [used|]; [|apply own_refl].
  destruct (apply_learning_algorithm _ _ _ _ _ _ _ _ _ _ _ _ _ _) as [[[[learned report] calc'] reference]|]; [|apply own_refl]. destruct (add_to_action_stats _ _ _ _ _ _ _ _ _ _ _) as [m e]. destruct (match e with Some _ => _ | None => _ end) as [time|]; [|apply own_refl].
  destruct (directory_in (ws_test ws) sets) as [test|] eqn:TE; [|apply own_refl]. unfold directory_in in TE. destruct (dict_get (ws_test ws) sets) as [test'|] eqn:TG; [|discriminate TE]. apply Ok_inj in TE. subst test'.
  set (w1 := export_domain_and_backup _ _ _ _ _ _ _ _ _ _ _ _).
  assert (OWN : forall d, (forall name, ~ In name (map (job_file domain_name alg fold n) job_kinds) -> dict_get d name = dict_get (ws_results ws) name) ->
    own_files fold version n alg ws (mk_ws (ws_train w1) (ws_test w1) (ws_eval w1) d (ws_backups w1))).
  { intros d F. split; [reflexivity|]. split; [reflexivity|]. split; [exact F|]. cbn [ws_test w1 export_domain_and_backup]. fold sets. split; [intros name N; apply dict_get_set_other; exact N|]. split; right; [exists test; do 2 eexists; split; [exact TG|]; split; [apply set_only|]; apply dict_get_set_same|]. do 2 eexists. unfold w1, export_domain_and_backup, job_backup_file. cbn [ws_backups]. apply set_only. }
  assert (OWN1 : own_files fold version n alg ws w1) by (refine (OWN (ws_results ws) _); intros name N; reflexivity).
  match goal with |- context [match (if abort then ?x else ?y) with _ => _ end] => destruct (if abort then x else y) as [solving|] end; [|exact OWN1].
  destruct (measure _ _ _ _ _) as [numeric|]; [|exact OWN1]. destruct (export_results _ _ _ _ _ _ _ _ _) as [d e'] eqn:EX. cbn [fst]. apply OWN. intros name N. pose proof (export_frame alg fold n solving numeric m (ws_results w1) name N) as X. rewrite EX in X. exact X.
Qed.
Theorem job_own args ws : fst (run_job args ws) = ws \/ exists fold version n sets alg, numeric_runner args = Ok (fold, version, n, sets) /\ algorithm_type version = Ok alg /\ own_files fold version n alg ws (fst (run_job args ws)).
Proof.
  unfold JobModel.run_job, stopping. destruct (numeric_runner args) as [[[[fold version] n] sets]|] eqn:NR; [|left; reflexivity]. destruct (sets_of _ _ _ _ _ NR) as (-> & VI). right.
  assert (X : exists alg, algorithm_type version = Ok alg) by (destruct VI as [<-|[<-|[<-|[<-|[<-|[<-|[]]]]]]]; eexists; reflexivity). destruct X as (alg & AL). exists fold, version, n. do 2 eexists. split; [reflexivity|]. split; [exact AL|]. apply iteration_own. exact AL.
Qed.

(** ** An algorithm without a learner *)
Lemma apply_missing version c train eval partial used : ~ In version [3; 5; 19] -> apply_learning_algorithm domain obs learn mine data mined_calculator model mined_model version c train eval partial used = Err KeyError.
Proof.
  intros N. unfold apply_learning_algorithm. destruct (Nat.eqb_spec version 5) as [->|N5]; [exfalso; apply N; cbn; tauto|]. destruct (memb version [3; 19]) eqn:M; [|reflexivity]. apply memb_In in M. exfalso. apply N. cbn in *. tauto.
Qed.
Lemma iteration_missing ws fold version n sets : ~ In version [3; 5; 19] -> exists e, run_fold_iteration fold version n sets ws = (ws, Some e).
Proof.
  intros N. unfold JobModel.run_fold_iteration, stopping. destruct (algorithm_type version) as [alg|]; [|eauto]. destruct (init_calculator _) as [calc|]; [|eauto]. destruct (directory_in (ws_train ws) sets) as [train|]; [|eauto]. destruct (let* t := _ in _) as [partial|]; [|eauto].
  destruct (collect_observations _ _ _ _ _ _) as [used|]; [|eauto]. rewrite apply_missing by exact N. eauto.
Qed.
Theorem no_learner script e fold n j ws : configured e -> In 15 (ex_versions e) -> job_for script e fold 15 (Some n) j ->
  (exists x, run_job (j_arguments j) ws = (ws, Some x)) /\
  forall calc train text partial used, init_calculator (listed (ws_eval ws) ("fold_" ++ decimal fold)) = Ok calc -> dict_get (ws_train ws) (DfoldSpec.iteration_name fold 15 n) = Some train -> dict_get train domain_file_name = Some text -> parse_partial text = Ok partial ->
    Forall2 (fun x o => exists p t, dict_get train (x ++ ".pddl")%string = Some p /\ dict_get train (x ++ ".trajectory")%string = Some t /\ parse_observation partial p t = Ok o) (matching train) used ->
    run_job (j_arguments j) ws = (ws, Some KeyError).
Proof.
  intros C IV J. pose proof (numeric_arguments _ _ _ _ _ _ C IV J) as NR. unfold JobModel.run_job, stopping. rewrite NR. split; [apply iteration_missing; cbn; intuition discriminate|].
  intros calc train text partial used IC TR TX PP OB. unfold JobModel.run_fold_iteration, stopping. replace (algorithm_type 15) with (Ok "naive_nsam" : res string) by reflexivity. rewrite IC. unfold directory_in. rewrite TR. unfold read. rewrite TX. cbn [bind]. rewrite PP.
  rewrite (collected_observations train partial used OB), apply_missing by (cbn; intuition discriminate). reflexivity.
Qed.
End Job.
