(** * Semi-online learning: whole runs *)
From Verif Require Import SemiSpec SemiProofs NoamRun NoamSolve NoamFinal OnumFinal EpisodeProofs TextProofs VocabProofs Prelude PreludeProofs.
From Coq Require Import Lia.
Open Scope string_scope. Open Scope list_scope. Open Scope nat_scope.

(** ** What is recorded for one problem *)
Definition ops_of (P : problem) (l : list episode_step) : list (op world call) :=
  [ClearTrajectory world call; Grounded world call (length (en_actions (pr_env P)))] ++ map step_op l.
Notation episodes := (EpisodeSpec.episodes world call).
Notation count := (EpisodeSpec.count world call).
Lemma count_app f os os' : count f (os ++ os') = count f os + count f os'.
Proof. unfold EpisodeSpec.count. rewrite filter_app, app_length. reflexivity. Qed.
Lemma recorded_ops os P l : recorded world call (os ++ ops_of P l) = l.
Proof.
  induction l as [|s l IH] using rev_ind.
  - unfold ops_of. cbn [map]. rewrite app_nil_r. change [ClearTrajectory world call; Grounded world call (length (en_actions (pr_env P)))] with ([ClearTrajectory world call] ++ [Grounded world call (length (en_actions (pr_env P)))]).
    rewrite app_assoc, recorded_snoc, recorded_snoc. reflexivity.
  - assert (EQ : os ++ ops_of P (l ++ [s]) = (os ++ ops_of P l) ++ [step_op s]) by (unfold ops_of; rewrite map_app, <- !app_assoc; reflexivity). rewrite EQ, recorded_snoc. unfold step_op. rewrite IH. destruct s; reflexivity.
Qed.
Lemma episodes_ops os P l : episodes (os ++ ops_of P l) = (fst (episodes os), snd (episodes os) ++ ops_of P l).
Proof.
  induction l as [|s l IH] using rev_ind.
  - unfold ops_of. cbn [map]. rewrite app_nil_r. change [ClearTrajectory world call; Grounded world call (length (en_actions (pr_env P)))] with ([ClearTrajectory world call] ++ [Grounded world call (length (en_actions (pr_env P)))]).
    rewrite app_assoc, episodes_snoc, episodes_snoc. cbn [fst snd]. rewrite <- app_assoc. reflexivity.
  - assert (EQ : os ++ ops_of P (l ++ [s]) = (os ++ ops_of P l) ++ [step_op s]) by (unfold ops_of; rewrite map_app, <- !app_assoc; reflexivity). rewrite EQ, episodes_snoc, IH. unfold step_op. cbn [fst snd]. unfold ops_of. rewrite map_app, <- !app_assoc. reflexivity.
Qed.
Lemma ops_success n P l : count (succeeded world call c_name n) (ops_of P l) = successes n l.
Proof.
  unfold ops_of. rewrite count_app. change (count _ [_; _]) with 0. cbn [Nat.add]. induction l as [|s l IH]; [reflexivity|]. cbn [map]. change (step_op s :: map step_op l) with ([step_op s] ++ map step_op l). rewrite count_app, IH.
  unfold successes. cbn [filter]. destruct s as [p c q ok]. unfold EpisodeSpec.count, step_op, es_ok, es_call. cbn. destruct ok; cbn; [|reflexivity]. unfold Prelude.eqb. destruct (eq_dec (c_name c) n) as [e|e]; cbn; [rewrite e, String.eqb_refl; reflexivity|rewrite (proj2 (String.eqb_neq _ _) e); reflexivity].
Qed.
Lemma ops_refusal n P l : count (EpisodeSpec.failed world call c_name n) (ops_of P l) = refusals n l.
Proof.
  unfold ops_of. rewrite count_app. change (count _ [_; _]) with 0. cbn [Nat.add]. induction l as [|s l IH]; [reflexivity|]. cbn [map]. change (step_op s :: map step_op l) with ([step_op s] ++ map step_op l). rewrite count_app, IH.
  unfold refusals. cbn [filter]. destruct s as [p c q ok]. unfold EpisodeSpec.count, step_op, es_ok, es_call. cbn. destruct ok; cbn; [reflexivity|]. unfold Prelude.eqb. destruct (eq_dec (c_name c) n) as [e|e]; cbn; [rewrite e, String.eqb_refl; reflexivity|rewrite (proj2 (String.eqb_neq _ _) e); reflexivity].
Qed.
Lemma ops_failures P l : count (any_failure world call) (ops_of P l) = failures l.
Proof.
  unfold ops_of. rewrite count_app. change (count _ [_; _]) with 0. cbn [Nat.add]. induction l as [|s l IH]; [reflexivity|]. cbn [map]. change (step_op s :: map step_op l) with ([step_op s] ++ map step_op l). rewrite count_app, IH.
  unfold failures. cbn [filter]. destruct s as [p c q ok]. destruct ok; reflexivity.
Qed.
Lemma ops_steps P l : count (any_step world call) (ops_of P l) = length l.
Proof.
  unfold ops_of. rewrite count_app. change (count _ [_; _]) with 0. cbn [Nat.add]. induction l as [|s l IH]; [reflexivity|]. cbn [map]. change (step_op s :: map step_op l) with ([step_op s] ++ map step_op l). rewrite count_app, IH. reflexivity.
Qed.
Lemma ops_grounded P l : grounded world call (ops_of P l) = length (en_actions (pr_env P)).
Proof.
  unfold ops_of, grounded. rewrite fold_left_app. cbn [fold_left]. induction l as [|s l IH]; [reflexivity|]. cbn [map fold_left]. exact IH.
Qed.

Definition ending_of (P : problem) (v : visit) : ending :=
  mk_end (pr_name P) (vi_goal v) (vi_solved v) (status_name (vi_safe_status v)) (status_name (vi_optimistic_status v)) 0%Q true.
Lemma row_reported names n P v r : row_of world call c_name names n (ops_of P (vi_steps v), ending_of P v) r -> reported names n (P, v) r.
Proof.
  intros ((C1 & _ & C3 & C4) & E & S & G & PN & SS & SF & OP & _). rewrite ops_failures in C3. rewrite ops_grounded in C4. rewrite ops_steps in S.
  assert (NC : forall k x, nat_cell (dict_get r k) = Some x -> dict_get r k = Some (CNat x)) by (intros k x; destruct (dict_get r k) as [[]|]; cbn; congruence).
  unfold reported. split; [intros a A; destruct (C1 a A) as (X & Y & _); rewrite ops_success in X; rewrite ops_refusal in Y; auto|]. auto 10.
Qed.
Section Run.
Variable le : text -> text -> bool.
Variables unit fine : positive.
Variable fit : list (list Q) -> list Q -> list Q * Q * bool.
Variable hull : list (list Q) -> option (list (list Q) * list Q).
Variable schmidt : list (list Q) -> list (list Q) -> list (list Q).
Variable rank : list (list Q) -> nat.
Variable svm : list (list Q * bool) -> list Q * Q.
Variable limit : nat.
Variable flatten : bool.
Variable dom : domain.
Variable rd : random.
Variables min_episodes min_executions max_steps max_failed max_file : nat.
Variable problem_files : list string.
Hypothesis FAIR : fair rd.
Hypothesis FILE : 0 < max_file.
Notation names := (dict_keys (d_actions dom)).
Hypothesis PLAIN : Forall plain_name names.
Notation train := (numeric_train_trace unit fit hull schmidt dom).
Notation semi_explore := (semi_explore unit fit hull schmidt dom rd max_steps max_failed).
Notation semi_finish := (semi_finish max_file).
Notation explore_episode := (explore_episode unit fit hull schmidt dom rd max_steps max_failed max_file).
Notation semi_episode := (semi_episode unit fine fit hull schmidt rank svm limit flatten dom rd min_episodes min_executions max_steps max_failed max_file problem_files).
Notation semi_problems := (semi_problems unit fine fit hull schmidt rank svm limit flatten dom rd min_episodes min_executions max_steps max_failed max_file problem_files).

(** The disk: the files that are waiting, in the order of the queue. *)
Record disk (waiting : list (list ncomponent)) (M : semi) : Prop := {
  k_paths : r_paths world call (se_rec M) = [];
  k_queue : se_queue M = map (f_name world call) (r_files world call (se_rec M));
  k_names : forall f, In f (r_files world call (se_rec M)) -> exists p e i, f_name world call f = file_path p e i /\ e <= r_episode world call (se_rec M);
  k_nodup : NoDup (map (f_name world call) (r_files world call (se_rec M)));
  k_wait : map trace_of (r_files world call (se_rec M)) = waiting }.
Lemma disk_same waiting M M' : disk waiting M -> r_paths world call (se_rec M') = r_paths world call (se_rec M) -> se_queue M' = se_queue M -> r_files world call (se_rec M') = r_files world call (se_rec M) ->
  r_episode world call (se_rec M') = r_episode world call (se_rec M) -> disk waiting M'.
Proof. intros [] P Q F E. constructor; rewrite ?P, ?Q, ?F, ?E; assumption. Qed.
Variable degree : nat.
Variable solvers : list solver.
Notation learned_by := (numeric_train le unit fit hull schmidt dom degree).
Notation safe_after := (SemiSpec.safe_after le unit fine fit hull schmidt rank flatten dom degree).
Notation optimistic_after := (SemiSpec.optimistic_after le unit fine fit hull schmidt rank svm limit flatten dom degree).
Notation visited := (visited safe_after optimistic_after solvers names min_episodes min_executions max_steps max_failed max_file).
Notation all_visited := (all_visited safe_after optimistic_after solvers names min_episodes min_executions max_steps max_failed max_file).
Lemma learned_app ts ts' L L' : learned_by ts = Ok L -> fold_res train ts' L = Ok L' -> learned_by (ts ++ ts') = Ok L'.
Proof. unfold numeric_train. intros E1 E2. rewrite fold_res_app, E1. exact E2. Qed.
Record between (os : list (op world call)) (done : list episode_step) (waiting : list (list ncomponent)) (M : semi) : Prop := {
  b_rec : record_inv names os (se_rec M);
  b_open : snd (episodes os) = [];
  b_count : forall n, count (succeeded world call c_name n) os = successes n done;
  b_fails : se_fails M = failures done;
  b_disk : disk waiting M }.

Lemma finish_spec os P l waiting M goal solved safe optimistic M' : record_inv names (os ++ ops_of P l) (se_rec M) -> disk waiting M -> continuous world call l ->
  semi_finish M P goal solved safe optimistic = Ok M' ->
  exists parts fs, cut world call max_file l parts /\ r_files world call (se_rec M') = r_files world call (se_rec M) ++ fs /\ r_paths world call (se_rec M') = map (f_name world call) fs /\ map trace_of fs = map as_trace parts /\
    record_inv names ((os ++ ops_of P l) ++ [End world call (mk_end (pr_name P) goal solved (status_name safe) (status_name optimistic) 0%Q true)]) (se_rec M') /\
    r_episode world call (se_rec M') = r_episode world call (se_rec M) + 1 /\ (forall f, In f fs -> exists i, f_name world call f = file_path (pr_name P) (r_episode world call (se_rec M')) i) /\
    NoDup (map (f_name world call) (r_files world call (se_rec M) ++ fs)) /\ se_learners M' = se_learners M /\ se_fails M' = se_fails M /\ se_queue M' = se_queue M.
Proof.
  intros V D C. unfold SemiModel.semi_finish. set (e := mk_end _ _ _ _ _ _ _). destruct (step_end world call c_name max_file names (os ++ ops_of P l) (se_rec M) e V) as (r1 & E & V1 & F1 & P1 & N1). rewrite E. cbn [bind e_export e]. intros X. injection X as <-. cbn [e_problem].
  destruct (written_spec world call max_file (pr_name P) (r_episode world call r1) l FILE) as (parts & CU & FO). set (fs := EpisodeProofs.written world call max_file (pr_name P) (r_episode world call r1) l) in *.
  assert (TR : r_traj world call r1 = l).
  { rewrite (EpisodeProofs.i_traj _ _ _ _ _ _ V1), recorded_snoc. apply recorded_ops. }
  assert (NW : forall f, In f fs -> exists i, f_name world call f = file_path (pr_name P) (r_episode world call r1) i) by (intros f I; apply (written_names world call max_file (pr_name P) (r_episode world call r1) l f I)).
  assert (DIS : forall f g, In f fs -> In g (r_files world call r1) -> f_name world call f <> f_name world call g).
  { intros f g If Ig EQ. destruct (NW f If) as (i & Ni). rewrite F1 in Ig. destruct (k_names _ _ D g Ig) as (p & e0 & j & Nj & LE). rewrite Ni, Nj in EQ. apply file_path_inj in EQ. lia. }
  assert (NDW := written_names_nodup world call max_file (pr_name P) (r_episode world call r1) l). fold fs in NDW.
  exists parts, fs. split; [exact CU|].
  assert (WR : r_files world call (se_rec (se_with_rec M (export_episode_trajectory world call max_file r1 (pr_name P)))) = r_files world call (se_rec M) ++ fs).
  { cbn [se_with_rec se_rec export_episode_trajectory r_files]. rewrite TR. rewrite <- F1. apply (write_fresh world call fs (r_files world call r1) NDW DIS). }
  split; [exact WR|]. split; [cbn [se_with_rec se_rec export_episode_trajectory r_paths]; rewrite TR, P1, (k_paths _ _ D); reflexivity|].
  split. { erewrite map_ext; [|intros f; apply trace_read]. rewrite <- (map_map (read_file world call) (map as_component)). rewrite (read_files world call (pr_name P) (r_episode world call r1) parts fs); [reflexivity| |exact FO]. apply continuous_parts. rewrite (cut_concat world call _ _ _ CU). exact C. }
  split; [apply export_inv; exact V1|]. split; [exact N1|]. split; [exact NW|]. split; [|auto].
  rewrite map_app. rewrite F1 in DIS. clear -NDW DIS D. assert (ND0 := k_nodup _ _ D). induction (r_files world call (se_rec M)) as [|g gs IH]; [exact NDW|]. cbn [map app] in *. inversion ND0 as [|? ? X Y]; subst. constructor.
  - intros Z. apply in_app_iff in Z. destruct Z as [Z|Z]; [exact (X Z)|]. apply in_map_iff in Z. destruct Z as (f & EQ & If). exact (DIS f g If (or_introl eq_refl) EQ).
  - apply IH; [|exact Y]. intros f g' If Ig. apply DIS; [exact If|right; exact Ig].
Qed.

Lemma explore_spec os done waiting P w M goal solved safe optimistic M1 M2 n : NoDup (en_actions (pr_env P)) ->
  record_inv names (os ++ ops_of P []) (se_rec M) -> disk waiting M -> se_fails M = failures done ->
  semi_explore (pr_env P) M w = Ok (M1, (goal, n)) -> semi_finish M1 P goal solved safe optimistic = Ok M2 ->
  exists rs parts, let l := concat rs in cut world call max_file l parts /\
    (forall v, vi_rounds v = rs -> vi_goal v = goal -> vi_solved v = false -> explores max_steps max_failed done P w v) /\
    fold_res train (if goal then [] else [[]]) (se_learners M) = Ok (se_learners M2) /\
    let M3 := se_with_queue M2 (se_queue M2 ++ r_paths world call (se_rec M2)) in let M4 := se_with_rec M3 (clear_paths world call (se_rec M3)) in
    record_inv names ((os ++ ops_of P l) ++ [End world call (mk_end (pr_name P) goal solved (status_name safe) (status_name optimistic) 0%Q true)]) (se_rec M4) /\
    disk (waiting ++ map as_trace parts) M4 /\ se_fails M4 = failures (done ++ l).
Proof.
  intros ND V D FL. unfold SemiModel.semi_explore. destruct (semi_sort dom rd (pr_env P) M) as [(M0 & frontier)|] eqn:SO; [|discriminate]. cbn [bind]. intros LO FI.
  destruct (sort_spec dom rd FAIR _ _ _ _ SO) as (-> & A & LF & PF). destruct (loop_spec unit fit hull schmidt dom rd max_steps max_failed FAIR (pr_env P) ND max_steps 0 (more_draws M) w frontier M1 goal n A LF (PF ND) LO) as (rs & ws & RO & LW & RE & NM & FF & QQ & BU & RES).
  cbn [more_draws se_rec se_fails se_queue se_learners] in *. destruct (record_all_inv names PLAIN (concat rs) _ _ _ V NM RE) as (V1 & F1 & P1 & E1).
  assert (OPS : (os ++ ops_of P []) ++ map step_op (concat rs) = os ++ ops_of P (concat rs)) by (unfold ops_of; cbn [map]; rewrite app_nil_r, <- app_assoc; reflexivity). rewrite OPS in V1.
  destruct (roams_chain _ _ _ _ RO) as (wl & CH). apply chain_continuous in CH.
  destruct (finish_spec os P (concat rs) waiting M1 goal solved safe optimistic M2 V1 (disk_same waiting M M1 D P1 QQ F1 E1) CH FI) as (parts & fs & CU & FS & PS & TR & V2 & E2 & NF & NDF & L2 & F2 & Q2).
  exists rs, parts. cbn zeta. split; [exact CU|]. split.
  { intros v ER EG ES. split; [exact ES|]. unfold vi_steps. rewrite ER, EG. exists ws. split; [exact RO|]. split; [exact LW|]. split; [intros rs1 r rs2 EQ; rewrite failures_app, <- FL; exact (BU _ _ _ EQ)|]. destruct goal; [exact (proj2 RES)|].
    destruct RES as (_ & G & OR). split; [exact G|]. destruct OR as [OR|[OR|OR]]; [left; exact OR|right; left|right; right].
    - rewrite failures_app, <- FL, <- FF. exact OR.
    - intros c IC NC. assert (X : In c (injective_actions (pr_env P))) by (apply injective_In; split; assumption). rewrite OR in X. exact X. }
  split; [rewrite L2; destruct goal; [destruct RES as (-> & _); reflexivity|destruct RES as (T & _); cbn [fold_res]; rewrite T; reflexivity]|].
  cbn [se_with_queue se_with_rec se_rec se_queue se_fails se_learners].
  split; [destruct V2; constructor; assumption|]. split; [|rewrite F2, FF, failures_app, FL; reflexivity].
  constructor; cbn [se_rec se_queue se_with_queue se_with_rec clear_paths r_paths r_files r_episode].
  - reflexivity.
  - rewrite Q2, QQ, PS, FS, F1, map_app, (k_queue _ _ D). reflexivity.
  - intros f I. rewrite FS, F1 in I. apply in_app_iff in I. destruct I as [I|I].
    + destruct (k_names _ _ D f I) as (p & e & i & N & LE). exists p, e, i. split; [exact N|]. rewrite E2, E1. lia.
    + destruct (NF f I) as (i & N). eexists _, _, _. split; [exact N|lia].
  - rewrite FS. exact NDF.
  - rewrite FS, F1, map_app, TR, (k_wait _ _ D). reflexivity.
Qed.

(** ** One problem *)
Lemma enough_spec os done waiting M b : between os done waiting M -> executed_enough dom min_executions M = Ok b -> (b = true <-> forall n, In n names -> min_executions <= successes n done).
Proof.
  intros B. unfold executed_enough. destruct (map_res _ names) as [ks|] eqn:E; [|discriminate]. cbn [bind]. intros [= <-]. apply map_res_Ok in E.
  assert (F : Forall2 (fun n k => k = successes n done) names ks).
  { assert (G : forall l ks0, (forall x, In x l -> In x names) -> Forall2 (fun n k => get_number_successful_action_executions world call (se_rec M) n = Ok k) l ks0 -> Forall2 (fun n k => k = successes n done) l ks0).
    { intros l ks0 SUB F. induction F as [|n k l ks0 X F IH]; constructor; [|apply IH; intros x Hx; apply SUB; right; exact Hx]. unfold get_number_successful_action_executions in X.
      rewrite (EpisodeProofs.i_hist _ _ _ _ _ _ (b_rec _ _ _ _ B) n (SUB n (or_introl eq_refl))), (b_count _ _ _ _ B) in X. congruence. }
    apply G; [auto|]. exact E. }
  clear - F. induction F as [|n k l ks X F IH]; [split; [intros _ n []|reflexivity]|]. cbn [forallb]. rewrite andb_true_iff, IH, Nat.leb_le. subst k. split.
  - intros (X & Y) m [<-|I]; auto.
  - intros H. split; [apply H; left; reflexivity|intros m I; apply H; right; exact I].
Qed.
Lemma start_inv os done waiting P M : between os done waiting M ->
  let M0 := se_with_rec M (add_num_grounded_actions world call (clear_trajectory world call (se_rec M)) (length (en_actions (pr_env P)))) in
  record_inv names (os ++ ops_of P []) (se_rec M0) /\ disk waiting M0 /\ r_history world call (se_rec M0) = r_history world call (se_rec M).
Proof.
  intros B. cbn zeta. destruct (do_op_inv world call c_name 0 names os (se_rec M) (ClearTrajectory world call) PLAIN (b_rec _ _ _ _ B) I) as (r1 & E1 & V1). cbn [do_op] in E1. injection E1 as <-.
  destruct (do_op_inv world call c_name 0 names _ _ (Grounded world call (length (en_actions (pr_env P)))) PLAIN V1 I) as (r2 & E2 & V2). cbn [do_op] in E2. injection E2 as <-.
  split; [unfold ops_of; cbn [map]; rewrite app_nil_r; rewrite <- app_assoc in V2; exact V2|]. split; [|reflexivity].
  apply (disk_same waiting M); [exact (b_disk _ _ _ _ B)|reflexivity..].
Qed.
Lemma between_end os done waiting P v M : snd (episodes os) = [] -> (forall n, count (succeeded world call c_name n) os = successes n done) ->
  record_inv names ((os ++ ops_of P (vi_steps v)) ++ [End world call (ending_of P v)]) (se_rec M) -> disk waiting M -> se_fails M = failures (done ++ vi_steps v) ->
  between ((os ++ ops_of P (vi_steps v)) ++ [End world call (ending_of P v)]) (done ++ vi_steps v) waiting M /\
  fst (episodes ((os ++ ops_of P (vi_steps v)) ++ [End world call (ending_of P v)])) = fst (episodes os) ++ [(ops_of P (vi_steps v), ending_of P v)].
Proof.
  intros O C V D F. rewrite episodes_snoc, episodes_ops, O. cbn [fst snd app]. split; [|reflexivity]. constructor; [exact V| | |exact F|exact D].
  - rewrite episodes_snoc. reflexivity.
  - intros n. rewrite count_snoc, count_app, ops_success, C. cbn [succeeded]. unfold successes. rewrite filter_app, app_length. lia.
Qed.
Lemma explored_visit os done waiting P w M safe optimistic M' : NoDup (en_actions (pr_env P)) -> snd (episodes os) = [] -> (forall n, count (succeeded world call c_name n) os = successes n done) ->
  record_inv names (os ++ ops_of P []) (se_rec M) -> disk waiting M -> se_fails M = failures done -> explore_episode P M w safe optimistic = Ok M' ->
  exists rs parts goal, forall pl s o, let v := mk_visit pl s o rs parts goal false safe optimistic in
    cut world call max_file (vi_steps v) (vi_parts v) /\ explores max_steps max_failed done P w v /\ fold_res train (second_look v) (se_learners M) = Ok (se_learners M') /\
    exists os', between os' (done ++ vi_steps v) (waiting ++ map as_trace (vi_parts v)) M' /\ fst (episodes os') = fst (episodes os) ++ [(ops_of P (vi_steps v), ending_of P v)].
Proof.
  intros ND O C V D F.  unfold SemiModel.explore_episode. destruct (semi_explore (pr_env P) M w) as [(M1 & (goal & n))|] eqn:EX; [|discriminate]. cbn [bind]. destruct (semi_finish M1 P goal false safe optimistic) as [M2|] eqn:FI; [|discriminate]. cbn [bind]. intros X. injection X as <-.
  destruct (explore_spec os done waiting P w M goal false safe optimistic M1 M2 n ND V D F EX FI) as (rs & parts & CU & EXP & TR & V2 & D2 & F2). exists rs, parts, goal. intros pl s o. cbn zeta.
  split; [exact CU|]. split; [apply EXP; reflexivity|]. split; [exact TR|]. eexists. apply (between_end os done (waiting ++ map as_trace parts) P (mk_visit pl s o rs parts goal false safe optimistic)); [exact O|exact C|exact V2|exact D2|exact F2].
Qed.
Lemma solved_visit os done waiting P M safe optimistic M' s o : snd (episodes os) = [] -> (forall n, count (succeeded world call c_name n) os = successes n done) ->
  record_inv names (os ++ ops_of P []) (se_rec M) -> disk waiting M -> se_fails M = failures done -> semi_finish M P true true safe optimistic = Ok M' ->
  let v := mk_visit true s o [] [] true true safe optimistic in
    se_learners M' = se_learners M /\ exists os', between os' (done ++ vi_steps v) (waiting ++ map as_trace (vi_parts v)) M' /\ fst (episodes os') = fst (episodes os) ++ [(ops_of P (vi_steps v), ending_of P v)].
Proof.
  intros O C V D F FI. cbn zeta. destruct (finish_spec os P [] waiting M true true safe optimistic M' V D I FI) as (parts & fs & CU & FS & PS & TR & V2 & E2 & NF & NDF & L2 & F2 & Q2).
  assert (parts = []) as -> by (apply cut_concat in CU as CC; destruct parts as [|p parts]; [reflexivity|exfalso; apply cut_nonempty in CU; inversion CU; subst; destruct p; [congruence|discriminate CC]]).
  destruct fs as [|f fs]; [|discriminate TR]. rewrite app_nil_r in FS, NDF. split; [exact L2|]. cbn [vi_parts map]. rewrite (app_nil_r waiting). eexists. apply (between_end os done waiting P (mk_visit true s o [] [] true true safe optimistic)); [exact O|exact C|exact V2| |rewrite F2; cbn; rewrite app_nil_r; exact F].
  constructor; rewrite ?FS, ?Q2, ?PS; [reflexivity|exact (k_queue _ _ D)| |exact (k_nodup _ _ D)|exact (k_wait _ _ D)].
  intros f If. destruct (k_names _ _ D f If) as (p & e & i & N & LE). exists p, e, i. split; [exact N|lia].
Qed.
Lemma is_ok_true st : is_ok st = true -> st = st_ok. Proof. destruct st; cbn; congruence. Qed.
Lemma is_ok_false st : is_ok st = false -> st <> st_ok. Proof. intros E ->. discriminate E. Qed.

Lemma episode_spec os done learned waiting index P M M' : NoDup (en_actions (pr_env P)) -> between os done waiting M -> learned_by learned = Ok (se_learners M) -> semi_episode solvers index P M = Ok M' ->
  exists v os', visited index done learned waiting P v /\ between os' (done ++ vi_steps v) (snd (lesson waiting v)) M' /\
    fst (episodes os') = fst (episodes os) ++ [(ops_of P (vi_steps v), ending_of P v)] /\ learned_by (learned ++ fst (lesson waiting v)) = Ok (se_learners M').
Proof.
  intros ND B LB. unfold SemiModel.semi_episode. destruct (start_inv os done waiting P M B) as (V0 & D0 & H0). set (M0 := se_with_rec M _) in *.
  assert (F0 : se_fails M0 = failures done) by exact (b_fails _ _ _ _ B). assert (O0 := b_open _ _ _ _ B). assert (C0 := b_count _ _ _ _ B).
  destruct (if min_episodes <=? index then Ok true else executed_enough dom min_executions M0) as [planned|] eqn:PL; [|discriminate]. cbn [bind].
  assert (TP : planned = true <-> time_to_plan names min_episodes min_executions index done).
  { unfold time_to_plan. destruct (min_episodes <=? index) eqn:ME.
    - injection PL as <-. apply Nat.leb_le in ME. split; auto.
    - apply Nat.leb_gt in ME. assert (EE : executed_enough dom min_executions M = Ok planned) by exact PL. rewrite (enough_spec os done waiting M planned B EE). split; [auto|]. intros [X|X]; [lia|exact X]. }
  destruct planned.
  - destruct (read_trajectories unit fit hull schmidt dom problem_files (se_queue M0) M0) as [M1|] eqn:RT; [|discriminate]. cbn [bind]. rewrite (k_queue _ _ D0) in RT.
    destruct (reading unit fit hull schmidt dom problem_files (r_files world call (se_rec M0)) M0 M1 eq_refl (k_nodup _ _ D0) RT) as (T1 & Q1 & FI1 & FA1 & PA1 & EP1 & VV). rewrite (k_wait _ _ D0) in T1. apply VV in V0. clear VV. change (se_learners M0) with (se_learners M) in T1.
    assert (LB1 := learned_app _ _ _ _ LB T1).
    assert (D1 : disk [] M1) by (constructor; [rewrite PA1; exact (k_paths _ _ D0)|rewrite Q1, FI1; reflexivity|rewrite FI1; intros f []|rewrite FI1; constructor|rewrite FI1; reflexivity]). rewrite F0 in FA1.
    destruct (semi_solve unit fine fit hull schmidt rank svm limit flatten dom true solvers P M1) as [(M2 & (safe & w2))|] eqn:S1; [|discriminate]. cbn [bind]. destruct (solve_spec _ _ _ _ _ _ _ _ _ _ _ _ _ _ _ _ _ S1) as (m1 & t1 & w1 & CM1 & A1 & T2 & EM2 & _). clear S1. cbn iota in CM1.
    assert (LB2 := learned_app _ _ _ _ LB1 T2). rewrite <- app_assoc in LB2.
    assert (D2 : disk [] M2) by (rewrite EM2; apply (disk_same [] M1); [exact D1|reflexivity..]). assert (V2 : record_inv names (os ++ ops_of P []) (se_rec M2)) by (rewrite EM2; exact V0). assert (F2 : se_fails M2 = failures done) by (rewrite EM2; exact FA1). clear EM2.
    destruct (is_ok safe) eqn:OK1.
    + apply is_ok_true in OK1. subst safe. intros FI. destruct (solved_visit os done [] P M2 st_ok st_irrelevant M' t1 None O0 C0 V2 D2 F2 FI) as (L & os' & B' & E'). exists (mk_visit true t1 None [] [] true true st_ok st_irrelevant), os'.
      split. { split; [exact TP|]. split; [reflexivity|]. cbn [vi_planned]. exists m1, w1. split; [exists (se_learners M1); split; assumption|]. split; [exact A1|]. left. repeat split. }
      split; [exact B'|]. split; [exact E'|]. unfold lesson, second_look. cbn [vi_planned vi_safe vi_optimistic vi_goal fst trace_list]. rewrite !app_nil_r. rewrite L. exact LB2.
    + destruct (semi_solve unit fine fit hull schmidt rank svm limit flatten dom false solvers P M2) as [(M3 & (opt & w3))|] eqn:S2; [|discriminate]. cbn [bind]. destruct (solve_spec _ _ _ _ _ _ _ _ _ _ _ _ _ _ _ _ _ S2) as (m2 & t2 & w2' & CM2 & A2 & T3 & EM3 & LW). clear S2. cbn iota in CM2.
      assert (LB3 := learned_app _ _ _ _ LB2 T3). rewrite <- !app_assoc in LB3.
      assert (D3 : disk [] M3) by (rewrite EM3; apply (disk_same [] M2); [exact D2|reflexivity..]). assert (V3 : record_inv names (os ++ ops_of P []) (se_rec M3)) by (rewrite EM3; exact V2). assert (F3 : se_fails M3 = failures done) by (rewrite EM3; exact F2). clear EM3.
      destruct (is_ok opt) eqn:OK2.
      * apply is_ok_true in OK2. subst opt. intros FI. destruct (solved_visit os done [] P M3 safe st_ok M' t1 t2 O0 C0 V3 D3 F3 FI) as (L & os' & B' & E'). exists (mk_visit true t1 t2 [] [] true true safe st_ok), os'.
        split. { split; [exact TP|]. split; [reflexivity|]. cbn [vi_planned]. exists m1, w1. split; [exists (se_learners M1); split; assumption|]. split; [exact A1|]. right. split; [apply is_ok_false; exact OK1|]. exists m2, w2'. split; [exists (se_learners M2); split; assumption|]. split; [exact A2|]. left. repeat split. }
        split; [exact B'|]. split; [exact E'|]. unfold lesson, second_look. cbn [vi_planned vi_safe vi_optimistic vi_goal fst]. rewrite !app_nil_r. rewrite L. exact LB3.
      * rewrite LW. intros EX. destruct (explored_visit os done [] P w2' M3 safe opt M' ND O0 C0 V3 D3 F3 EX) as (rs & parts & goal & H). destruct (H true t1 t2) as (CU & EXP & TR & os' & B' & E'). exists (mk_visit true t1 t2 rs parts goal false safe opt), os'.
        split. { split; [exact TP|]. split; [exact CU|]. cbn [vi_planned]. exists m1, w1. split; [exists (se_learners M1); split; assumption|]. split; [exact A1|]. right. split; [apply is_ok_false; exact OK1|]. exists m2, w2'. split; [exists (se_learners M2); split; assumption|]. split; [exact A2|]. right. split; [apply is_ok_false; exact OK2|exact EXP]. }
        split; [exact B'|]. split; [exact E'|]. unfold lesson. cbn [vi_planned vi_safe vi_optimistic fst]. pose proof (learned_app _ _ _ _ LB3 TR) as LB4. rewrite <- !app_assoc in LB4. exact LB4.
  - intros EX. destruct (explored_visit os done waiting P (pr_init P) M0 st_no_solution st_no_solution M' ND O0 C0 V0 D0 F0 EX) as (rs & parts & goal & H). destruct (H false None None) as (CU & EXP & TR & os' & B' & E'). exists (mk_visit false None None rs parts goal false st_no_solution st_no_solution), os'.
    split. { split; [exact TP|]. split; [exact CU|]. cbn [vi_planned]. do 4 (split; [reflexivity|]). exact EXP. }
    split; [exact B'|]. split; [exact E'|exact (learned_app _ _ _ _ LB TR)].
Qed.

(** ** All problems *)
Lemma lessons_cons waiting v vs : lessons waiting (v :: vs) = (fst (lesson waiting v) ++ fst (lessons (snd (lesson waiting v)) vs), snd (lessons (snd (lesson waiting v)) vs)).
Proof. cbn [lessons]. destruct (lesson waiting v) as (l & w). cbn [fst snd]. destruct (lessons w vs). reflexivity. Qed.
Lemma problems_spec : forall problems index os done learned waiting M M', action_sets problems -> between os done waiting M -> learned_by learned = Ok (se_learners M) -> semi_problems solvers index problems M = Ok M' ->
  exists vs os', all_visited index done learned waiting problems vs /\ learned_by (learned ++ fst (lessons waiting vs)) = Ok (se_learners M') /\
    between os' (done ++ concat (map vi_steps vs)) (snd (lessons waiting vs)) M' /\
    fst (episodes os') = fst (episodes os) ++ map (fun Pv => (ops_of (fst Pv) (vi_steps (snd Pv)), ending_of (fst Pv) (snd Pv))) (combine problems vs).
Proof.
  induction problems as [|P problems IH]; intros index os done learned waiting M M' AS B LB; cbn [SemiModel.semi_problems].
  - intros [= <-]. exists [], os. cbn. rewrite !app_nil_r. auto.
  - destruct (semi_episode solvers index P M) as [M1|] eqn:E1; [|discriminate]. cbn [bind]. intros X. destruct (episode_spec os done learned waiting index P M M1 (AS P (or_introl eq_refl)) B LB E1) as (v & os1 & VI & B1 & EP1 & T1).
    destruct (IH (index + 1) os1 (done ++ vi_steps v) (learned ++ fst (lesson waiting v)) (snd (lesson waiting v)) M1 M' (fun Q IQ => AS Q (or_intror IQ)) B1 T1 X) as (vs & os' & AV & T2 & B2 & EP2). exists (v :: vs), os'. rewrite lessons_cons. cbn [fst snd].
    split; [split; assumption|]. split; [rewrite app_assoc; exact T2|]. split; [cbn [map concat]; rewrite app_assoc; exact B2|]. cbn [combine map fst snd]. rewrite EP2, EP1, <- app_assoc. reflexivity.
Qed.
Lemma init_between : between [] [] [] (init_semi le dom degree).
Proof. constructor; [apply new_inv|reflexivity|reflexivity|reflexivity|]. constructor; [reflexivity|reflexivity|intros f []|constructor|reflexivity]. Qed.
Lemma holds_files fs ts : map trace_of fs = ts -> Forall2 holds_trace fs ts.
Proof. intros <-. induction fs as [|f fs IH]; [constructor|]. cbn [map]. constructor; [symmetry; apply trace_read|exact IH]. Qed.
Theorem run_spec problems M : action_sets problems ->
  semi_run le unit fine fit hull schmidt rank svm limit flatten dom rd min_episodes min_executions max_steps max_failed max_file problem_files (Some solvers) degree problems = Ok M ->
  exists vs, all_visited 0 [] [] [] problems vs /\
    numeric_train le unit fit hull schmidt dom degree (fst (lessons [] vs)) = Ok (se_learners M) /\
    se_queue M = map (f_name world call) (r_files world call (se_rec M)) /\ Forall2 holds_trace (r_files world call (se_rec M)) (snd (lessons [] vs)) /\
    EpisodeSpec.numbered (reported names) 1 (combine problems vs) (r_rows world call (se_rec M)).
Proof.
  intros AS X. destruct (problems_spec problems 0 [] [] [] [] _ M AS init_between eq_refl X) as (vs & os & AV & T & B & EP). exists vs. split; [exact AV|]. split; [exact T|]. split; [exact (k_queue _ _ (b_disk _ _ _ _ B))|].
  split; [apply holds_files; exact (k_wait _ _ (b_disk _ _ _ _ B))|]. pose proof (EpisodeProofs.i_rows _ _ _ _ _ _ (b_rec _ _ _ _ B)) as R. rewrite EP in R. cbn [episodes fst] in R. change (fst (EpisodeSpec.episodes world call [])) with (@nil (list (op world call) * ending)) in R. cbn [app] in R.
  clear EP. revert R. generalize 1. generalize (r_rows world call (se_rec M)). induction (combine problems vs) as [|(P & v) l IH]; intros rows k N; destruct rows as [|r rows]; cbn [map EpisodeSpec.numbered] in *; try contradiction; auto. destruct N as (N1 & N2). split; [apply row_reported; exact N1|apply IH; exact N2].
Qed.

(** ** What is learned really happened *)
Lemma attempt_happened m P t st w : attempted solvers m P t st w -> Forall (Forall (component_happened (pr_env P))) (trace_list t).
Proof. destruct t as [t|]; cbn [trace_list]; [|constructor]. intros (svs & sv & svs' & plan & b & _ & _ & _ & R & _). constructor; [eapply plan_happened; exact R|constructor]. Qed.
Lemma roams_happened E w rs ws : roams E w rs ws -> Forall (fun s => component_happened E (as_component s)) (concat rs).
Proof.
  induction 1 as [w|w r w' rs ws (F & _) _ IH]; [constructor|]. cbn [concat]. apply Forall_app. split; [|exact IH]. eapply Forall_impl; [|exact F]. intros s (_ & H & _). apply outcome_component. exact H.
Qed.
Lemma visit_happened index before learned waiting P v : visited index before learned waiting P v ->
  Forall (Forall (component_happened (pr_env P))) (trace_list (vi_safe v) ++ trace_list (vi_optimistic v)) /\ Forall (Forall (component_happened (pr_env P))) (second_look v) /\ Forall (Forall (component_happened (pr_env P))) (map as_trace (vi_parts v)).
Proof.
  intros (_ & CU & H). assert (SL : Forall (Forall (component_happened (pr_env P))) (second_look v)) by (unfold second_look; destruct (vi_goal v); repeat constructor).
  assert (PARTS : Forall (fun s => component_happened (pr_env P) (as_component s)) (vi_steps v) -> Forall (Forall (component_happened (pr_env P))) (map as_trace (vi_parts v))).
  { rewrite <- (cut_concat world call _ _ _ CU). generalize (vi_parts v). induction l as [|p parts IH]; [constructor|]. cbn [concat map]. intros F. apply Forall_app in F. destruct F as (F1 & F2). constructor; [|auto]. unfold as_trace. clear - F1. induction F1; constructor; assumption. }
  assert (EXPL : forall w, explores max_steps max_failed before P w v -> Forall (Forall (component_happened (pr_env P))) (map as_trace (vi_parts v))).
  { intros w (_ & ws & R & _). apply PARTS. eapply roams_happened. exact R. }
  destruct (vi_planned v).
  - destruct H as (m & w & _ & A1 & [(_ & E & _ & (R & _))|(_ & m' & w' & _ & A2 & [(_ & (R & _))|(_ & X)])]); (split; [apply Forall_app; split; [exact (attempt_happened _ _ _ _ _ A1)|]|split; [exact SL|]]).
    + rewrite E. constructor.
    + apply PARTS. unfold vi_steps. rewrite R. constructor.
    + exact (attempt_happened _ _ _ _ _ A2).
    + apply PARTS. unfold vi_steps. rewrite R. constructor.
    + exact (attempt_happened _ _ _ _ _ A2).
    + exact (EXPL _ X).
  - destruct H as (E1 & E2 & _ & _ & X). split; [rewrite E1, E2; constructor|]. split; [exact SL|exact (EXPL _ X)].
Qed.
Lemma lessons_happened real : forall problems vs index before learned waiting, real_problems dom real problems -> all_visited index before learned waiting problems vs ->
  (forall t cp, In t waiting -> In cp t -> cp_ok (nc_comp cp) = true -> real_success dom real cp) ->
  forall t cp, In t (fst (lessons waiting vs)) -> In cp t -> cp_ok (nc_comp cp) = true -> real_success dom real cp.
Proof.
  induction problems as [|P problems IH]; intros [|v vs] index before learned waiting RP AV W; try (exfalso; exact AV); [intros t cp []|]. destruct AV as (VI & AV). destruct (visit_happened _ _ _ _ _ _ VI) as (H1 & H2 & H3).
  assert (OK : forall l, Forall (Forall (component_happened (pr_env P))) l -> forall t cp, In t l -> In cp t -> cp_ok (nc_comp cp) = true -> real_success dom real cp).
  { intros l F t cp It Ic. rewrite Forall_forall in F. specialize (F t It). rewrite Forall_forall in F. apply (happened_real dom real (pr_env P)); [apply RP; left; reflexivity|apply F; exact Ic]. }
  rewrite lessons_cons. cbn [fst]. intros t cp It. apply in_app_iff in It. destruct It as [It|It].
  - unfold lesson in It. destruct (vi_planned v); cbn [fst] in It; [|exact (OK _ H2 t cp It)]. rewrite (app_assoc (trace_list _)) in It. rewrite 2 in_app_iff in It. destruct It as [It|[It|It]]; [exact (W t cp It)|exact (OK _ H1 t cp It)|exact (OK _ H2 t cp It)].
  - revert t cp It. apply (IH vs (index + 1) (before ++ vi_steps v) (learned ++ fst (lesson waiting v))); [intros Q IQ; apply RP; right; exact IQ|exact AV|]. unfold lesson. destruct (vi_planned v); cbn [snd]; [exact (OK _ H3)|].
    intros t cp It. apply in_app_iff in It. destruct It as [It|It]; [exact (W t cp It)|exact (OK _ H3 t cp It)].
Qed.
End Run.

Lemma semi_safety le unit fine fit hull schmidt rank svm limit fl dom rd min_episodes min_executions max_steps max_failed max_file problem_files solvers degree problems M :
  fair rd -> 0 < max_file -> Forall plain_name (dict_keys (d_actions dom)) -> action_sets problems ->
  semi_run le unit fine fit hull schmidt rank svm limit fl dom rd min_episodes min_executions max_steps max_failed max_file problem_files (Some solvers) degree problems = Ok M ->
  exists vs, all_visited (safe_after le unit fine fit hull schmidt rank fl dom degree) (optimistic_after le unit fine fit hull schmidt rank svm limit fl dom degree) solvers (dict_keys (d_actions dom)) min_episodes min_executions max_steps max_failed max_file 0 [] [] [] problems vs /\ numeric_train le unit fit hull schmidt dom degree (fst (lessons [] vs)) = Ok (se_learners M) /\
  forall real, real_problems dom real problems -> exact_libraries unit fit hull schmidt -> real_numeric_actions dom degree real -> (exists j, fine = (unit * j)%positive) -> exact_regression unit fit ->
  online_input unit fit le dom degree (fst (lessons [] vs)) ->
  forall model n a e r np, construct_safe_action_model unit fine fit rank fl dom (se_learners M) = Ok model -> dict_get (d_actions dom) n = Some a -> dict_get model n = Some e -> real n = Some (r, np) ->
  of_action n (fst (lessons [] vs)) <> [] -> safe_export dom r np e.
Proof.
  intros FAIR FILE PLAIN AS X. destruct (run_spec le unit fine fit hull schmidt rank svm limit fl dom rd min_episodes min_executions max_steps max_failed max_file problem_files FAIR FILE PLAIN degree solvers problems M AS X) as (vs & AV & TR & _).
  exists vs. split; [exact AV|]. split; [exact TR|]. intros real RP EL RN FINE REG OL model n a e r np CM GA GE ER NE.
  refine (model_safe le unit fine fit hull schmidt rank dom degree (fst (lessons [] vs)) (se_learners M) fl model EL OL TR CM n a e GA GE NE real r np RN _ ER FINE REG).
  intros cp I. unfold of_action in I. apply filter_In in I. destruct I as (I & B). rewrite !andb_true_iff in B. destruct B as ((OK & _) & _). apply in_concat in I. destruct I as (t & T & I).
  apply (lessons_happened le unit fine fit hull schmidt rank svm limit fl dom min_episodes min_executions max_steps max_failed max_file degree solvers real problems vs 0 [] [] [] RP AV (fun t cp (Z : In t []) => match Z with end) t cp T I OK).
Qed.

(** No step is made any more once enough steps have failed. *)
Lemma exhausted sd od svs names min_episodes min_executions max_steps max_failed max_file : forall problems vs index before learned waiting, all_visited sd od svs names min_episodes min_executions max_steps max_failed max_file index before learned waiting problems vs -> max_failed <= failures before -> Forall (fun v => vi_steps v = []) vs.
Proof.
  induction problems as [|P problems IH]; intros [|v vs] index before learned waiting AV F; try (exfalso; exact AV); [constructor|]. destruct AV as (VI & AV).
  assert (E : vi_steps v = []).
  { assert (X : forall w, explores max_steps max_failed before P w v -> vi_steps v = []).
    { intros w (_ & ws & _ & _ & B & _). unfold vi_steps. destruct (vi_rounds v) as [|r rs]; [reflexivity|]. specialize (B [] r rs eq_refl). cbn [concat] in B. rewrite app_nil_r in B. lia. }
    destruct VI as (_ & _ & H). destruct (vi_planned v).
    - destruct H as (m & w & _ & _ & [(_ & _ & _ & (R & _))|(_ & m' & w' & _ & _ & [(_ & (R & _))|(_ & Y)])]); [unfold vi_steps; rewrite R; reflexivity..|exact (X _ Y)].
    - destruct H as (_ & _ & _ & _ & Y). exact (X _ Y). }
  constructor; [exact E|]. apply (IH vs _ _ _ _ AV). rewrite failures_app. lia.
Qed.
Lemma later sd od svs names min_episodes min_executions max_steps max_failed max_file : forall problems vs index before learned waiting i, all_visited sd od svs names min_episodes min_executions max_steps max_failed max_file index before learned waiting problems vs ->
  max_failed <= failures (before ++ concat (map vi_steps (firstn i vs))) -> Forall (fun v => vi_steps v = []) (skipn i vs).
Proof.
  induction problems as [|P problems IH]; intros [|v vs] index before learned waiting i AV F; try (exfalso; exact AV); [destruct i; constructor|].
  destruct i as [|i]; [cbn in F; rewrite app_nil_r in F; exact (exhausted _ _ _ _ _ _ _ _ _ _ _ _ _ _ _ AV F)|]. destruct AV as (_ & AV). cbn [firstn map concat] in F. rewrite app_assoc in F. exact (IH vs _ _ _ _ i AV F).
Qed.
Lemma rows_failures names : forall problems vs k rows i, EpisodeSpec.numbered (reported names) k (combine problems vs) rows -> length problems = length vs ->
  list_sum (map (number_in "sum_failed_actions") (firstn i rows)) = failures (concat (map vi_steps (firstn i vs))) /\
  (Forall (fun v => vi_steps v = []) (skipn i vs) -> forall r, In r (skipn i rows) -> dict_get r "num_steps_in_episode" = Some (CNat 0)).
Proof.
  induction problems as [|P problems IH]; intros [|v vs] k rows i N L; try discriminate L; destruct rows as [|r rows]; try (exfalso; exact N).
  - split; [destruct i; reflexivity|]. intros _ r. destruct i; intros [].
  - cbn [combine EpisodeSpec.numbered] in N. destruct N as (N1 & N2). injection L as L. destruct N1 as (_ & _ & _ & _ & F & S0 & _). destruct i as [|i].
    + cbn [firstn skipn map concat]. split; [reflexivity|]. intros Z. inversion Z as [|? ? Z1 Z2]; subst. intros r0 [<-|I]; [rewrite S0, Z1; reflexivity|]. destruct (IH vs _ rows 0 N2 L) as (_ & H). exact (H Z2 r0 I).
    + cbn [firstn skipn map concat]. destruct (IH vs _ rows i N2 L) as (H1 & H2). split; [|exact H2]. rewrite failures_app, <- H1. unfold number_in at 1. cbn [list_sum fold_right]. rewrite F. reflexivity.
Qed.
Lemma visited_length sd od svs names min_episodes min_executions max_steps max_failed max_file : forall problems vs index before learned waiting, all_visited sd od svs names min_episodes min_executions max_steps max_failed max_file index before learned waiting problems vs -> length problems = length vs.
Proof. induction problems as [|P problems IH]; intros [|v vs] index before learned waiting AV; try (exfalso; exact AV); [reflexivity|]. cbn [length]. f_equal. exact (IH vs _ _ _ _ (proj2 AV)). Qed.
Lemma no_exploration le unit fine fit hull schmidt rank svm limit fl dom rd min_episodes min_executions max_steps max_failed max_file problem_files :
  fair rd -> 0 < max_file -> Forall plain_name (dict_keys (d_actions dom)) -> forall solvers degree problems M, action_sets problems ->
  semi_run le unit fine fit hull schmidt rank svm limit fl dom rd min_episodes min_executions max_steps max_failed max_file problem_files (Some solvers) degree problems = Ok M ->
  let rows := r_rows world call (se_rec M) in forall i, max_failed <= list_sum (map (number_in "sum_failed_actions") (firstn i rows)) ->
  forall r, In r (skipn i rows) -> dict_get r "num_steps_in_episode" = Some (CNat 0).
Proof.
  intros FAIR FILE PLAIN solvers degree problems M AS X. cbn zeta. intros i F.
  destruct (run_spec le unit fine fit hull schmidt rank svm limit fl dom rd min_episodes min_executions max_steps max_failed max_file problem_files FAIR FILE PLAIN degree solvers problems M AS X) as (vs & AV & _ & _ & _ & N).
  destruct (rows_failures _ problems vs 1 _ i N (visited_length _ _ _ _ _ _ _ _ _ _ _ _ _ _ _ AV)) as (H1 & H2). rewrite H1 in F. apply H2. exact (later _ _ _ _ _ _ _ _ _ _ _ _ _ _ _ i AV F).
Qed.
