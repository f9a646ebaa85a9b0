(** * Preparing a distributed experiment: the whole script *)
From Coq Require Import Lia Ascii.
From Verif Require Import DfoldProofs DfoldFinal DfoldProperties FoldProofs EpisodeProofs TextProofs PrepModel PrepSpec PrepProofs Prelude PreludeProofs.
Open Scope string_scope. Open Scope list_scope. Open Scope nat_scope.

(** ** Saved settings do not depend on random choices *)
Lemma saved_nonempty shuffle fifth content domain matching sample algs it tr (w : dworld content) m ig x : create_distributed_k_fold shuffle fifth content domain matching sample 0 false algs it tr w m true ig = Ok x ->
  exists c, load_distributed_fold_settings content w = Ok c /\ (0 <? length c) = true.
Proof.
  unfold create_distributed_k_fold. destruct (load_distributed_fold_settings content w) as [c|]; [|discriminate]. cbn [bind andb]. intros E. exists c. split; [reflexivity|]. destruct (0 <? length c); [reflexivity|]. exfalso. unfold create_fold_from_scratch, create_test_set_indices in E. cbn in E. discriminate E.
Qed.
Lemma saved_same shuffle shuffle' fifth fifth' content domain matching matching' sample sample' n n' one one' algs it it' tr (w : dworld content) m m' ig c : load_distributed_fold_settings content w = Ok c -> (0 <? length c) = true ->
  create_distributed_k_fold shuffle fifth content domain matching sample n one algs it tr w m true ig = create_distributed_k_fold shuffle' fifth' content domain matching' sample' n' one' algs it' tr w m' true ig.
Proof. intros E L. unfold create_distributed_k_fold. rewrite E. cbn [bind andb]. rewrite L. reflexivity. Qed.

Section Whole.
Variable content : Type.
Variables (domain prefix : string) (matching : dir content -> list string).

Lemma ename_plain a j : ename None a j = plain_name j a.
Proof. unfold ename, plain_name, words. cbn [String.concat append]. rewrite app_empty. reflexivity. Qed.
Lemma test_dirs iterations items tests algs files (w : dworld content) a : experiment content files domain items tests algs iterations w -> In a algs -> (iterations = None \/ exists l, iterations = Some l /\ In 1 l) ->
  forall j test, nth_error tests j = Some test -> has_dir content files (dw_test _ w) (ename iterations a j) (map problem_of test).
Proof.
  intros EX IA IT j test N. destruct IT as [->|(l & -> & I1)].
  - rewrite ename_plain. exact (proj2 (EX j test a _ _ N IA (wanted_all _ _ _ _ eq_refl))).
  - exact (proj2 (EX j test a _ _ N IA (wanted_first _ _ _ _ _ _ eq_refl I1))).
Qed.
Lemma experiment_kept iterations items tests algs files (w w' : cworld content) : complete content domain prefix matching files -> Forall (fun t => incl t (matching files)) tests ->
  kept content domain files w w' -> experiment content files domain items tests algs iterations (cw_base _ w) -> experiment content files domain items tests algs iterations (cw_base _ w').
Proof.
  intros C T (_ & K1 & _ & _ & K2) EX j test a name sel N IA W. destruct (EX j test a name sel N IA W) as (A & B). split; [rewrite K1; exact A|]. apply K2; [|exact B]. apply (no_domain content domain prefix matching files C). rewrite Forall_forall in T. apply T. exact (nth_error_In _ _ N).
Qed.
Lemma removed_kept files (w w' : cworld content) : kept content domain files w w' -> remove_dfolds content (cw_base _ w') = remove_dfolds content (cw_base _ w).
Proof. intros (A & _ & B & _). unfold remove_dfolds. rewrite A, B. reflexivity. Qed.
Lemma ignoring_all items tests algs files (w : dworld content) : ignoring content files domain items tests algs None w -> experiment content files domain items tests algs None w.
Proof. intros H j test a name sel N IA W. inversion W; subst; [exact (H j test a N IA)|discriminate]. Qed.
Theorem prepared shuffle fifth sample walks (w : cworld content) n_split size a algs iterations triplets include_random : shuffles shuffle -> samples sample -> only_walks content walks ->
  let files := dw_files _ (cw_base _ w) in complete content domain prefix matching files -> dw_config _ (cw_base _ w) = DNoFile -> (iterations = None \/ exists l, iterations = Some l /\ In 1 l) ->
  let n := used (length (matching files)) size in 2 <= n_split <= n ->
  exists w' items tests, prepare_experiment content shuffle fifth domain matching sample n_split (a :: algs) iterations triplets walks prefix include_random size w = Ok (w', None) /\
    NoDup items /\ incl items (matching files) /\ length items = n /\ length tests = n_split /\ (forall x, In x items -> in_exactly_one x tests) /\ Forall (fun t => incl t items) tests /\
    experiment content files domain items tests (a :: algs) iterations (cw_base _ w') /\
    (forall j test, nth_error tests j = Some test -> evaluation content files prefix include_random (cw_evaluation _ w) test j (cw_evaluation _ w')) /\
    (forall name, (forall j, j < n_split -> name <> ("fold_" ++ decimal j)%string) -> dict_get (cw_evaluation _ w') name = dict_get (cw_evaluation _ w) name) /\ dw_files _ (cw_base _ w') = files /\
    forall shuffle' fifth' sample' walks' size' a' algs' triplets' include', only_walks content walks' -> exists w'',
      prepare_experiment content shuffle' fifth' domain matching sample' n_split (a' :: algs') iterations triplets' walks' prefix include' size' w' = Ok (w'', None) /\
      experiment content files domain items tests (a' :: algs') iterations (cw_base _ w'') /\
      (forall j test, nth_error tests j = Some test -> evaluation content files prefix include' (cw_evaluation _ w') test j (cw_evaluation _ w'')) /\ dw_files _ (cw_base _ w'') = files.
Proof.
  intros SH SA WA files C NC IT n NS. pose proof C as (C1 & C2 & C3 & _). set (b0 := remove_dfolds content (cw_base _ w)).
  assert (SI : some_iteration iterations) by (destruct IT as [->|(l & -> & I1)]; [discriminate|]; intros X; injection X as ->; destruct I1).
  assert (RD : dready content domain matching b0) by (split; [reflexivity|]; split; [reflexivity|]; split; [exact C2|]; split; [exact C1|exact C3]).
  set (ign := negb match iterations with Some _ => true | None => false end).
  destruct (C92_folds shuffle fifth SH content domain matching sample SA b0 n_split size false (a :: algs) iterations triplets true ign RD SI) as (b1 & items & tests & E & N1 & I1 & L1 & LT & TI & O & EX & _ & _ & _ & F1 & AGAIN); [exact NS|unfold b0, remove_dfolds; cbn; rewrite NC; exact I|right; exact NC|].
  change (dw_files content b0) with files in *. fold n in L1. cbn [dfolds] in LT.
  assert (TM : Forall (fun t => incl t (matching files)) tests) by (eapply Forall_impl; [|exact TI]; intros t H x X; apply I1, H, X).
  destruct (all_evaluations content domain prefix matching files C walks iterations a include_random WA tests 0 (mk_cworld content b1 (cw_evaluation _ w)) F1 TM) as (w' & E' & K & EV & OT).
  { cbn [cw_base Nat.add]. exact (test_dirs _ _ _ _ _ _ a EX (or_introl eq_refl) IT). }
  exists w', items, tests. split.
  { unfold prepare_experiment, create_folds_from_cross_validation. fold b0 ign. rewrite E. cbn [bind]. unfold create_random_performance_evaluation_trajectories. rewrite <- LT, E'. reflexivity. }
  split; [exact N1|]. split; [exact I1|]. split; [exact L1|]. split; [exact LT|]. split; [exact (O eq_refl)|]. split; [exact TI|]. split; [exact (experiment_kept _ _ _ _ _ _ _ C TM K EX)|]. split; [exact EV|]. split; [intros name H; rewrite <- LT in H; apply OT; exact H|]. split; [rewrite (proj1 K); exact F1|].
  intros shuffle' fifth' sample' walks' size' a' algs' triplets' include' WA'.
  destruct (AGAIN n_split false (a' :: algs') iterations triplets' size' ign) as (b2 & E2 & EX2 & IG2 & _ & F2). destruct (AGAIN 0 false (a' :: algs') iterations triplets' size' ign) as (b3 & E3 & _). destruct (saved_nonempty _ _ _ _ _ _ _ _ _ _ _ _ _ E3) as (c & LC & LN).
  rewrite (saved_same _ shuffle' _ fifth' _ _ _ matching _ sample' _ n_split _ false _ _ iterations _ _ _ size' _ _ LC LN) in E2.
  assert (EX' : experiment content files domain items tests (a' :: algs') iterations b2) by (subst ign; destruct iterations as [l|]; [apply EX2; reflexivity|apply ignoring_all, IG2; reflexivity]).
  destruct (all_evaluations content domain prefix matching files C walks' iterations a' include' WA' tests 0 (mk_cworld content b2 (cw_evaluation _ w')) F2 TM) as (w'' & E4 & K' & EV' & _).
  { cbn [cw_base Nat.add]. exact (test_dirs _ _ _ _ _ _ a' EX' (or_introl eq_refl) IT). }
  exists w''. split; [|split; [exact (experiment_kept _ _ _ _ _ _ _ C TM K' EX')|split; [exact EV'|rewrite (proj1 K'); exact F2]]].
  unfold prepare_experiment, create_folds_from_cross_validation. rewrite (removed_kept _ _ _ K). cbn [cw_base]. fold ign. rewrite E2. cbn [bind]. unfold create_random_performance_evaluation_trajectories. rewrite <- LT, E4. reflexivity.
Qed.

(** ** Evaluation directories that were empty before *)
Lemma ext_differ a b : (a ++ ".pddl")%string <> (b ++ ".solution")%string /\ (a ++ ".pddl")%string <> (b ++ ".trajectory")%string /\ (a ++ ".solution")%string <> (b ++ ".trajectory")%string.
Proof.
  assert (L : forall x y c d, (x ++ String c "")%string = (y ++ String d "")%string -> c = d) by apply last_char.
  assert (S : forall x, (x ++ ".pddl" = (x ++ ".pdd") ++ String "l"%char "" /\ x ++ ".solution" = (x ++ ".solutio") ++ String "n"%char "" /\ x ++ ".trajectory" = (x ++ ".trajector") ++ String "y"%char "")%string) by (intros x; rewrite !app_right; auto).
  repeat split; intros E; [rewrite (proj1 (S a)), (proj1 (proj2 (S b))) in E|rewrite (proj1 (S a)), (proj2 (proj2 (S b))) in E|rewrite (proj1 (proj2 (S a))), (proj2 (proj2 (S b))) in E]; apply L in E; discriminate E.
Qed.
Lemma item_inj x y n : In n (item_files x) -> In n (item_files y) -> x = y.
Proof.
  intros I J. destruct (ext_differ x y) as (A & B & D), (ext_differ y x) as (A' & B' & D'). cbn in I, J. destruct I as [<-|[<-|[<-|[]]]], J as [E|[E|[E|[]]]]; try (apply append_inj_r in E; congruence); exfalso; congruence.
Qed.
(** Nothing of an item that is trained on is in the directory of the fold. *)
Theorem separate files include_random before test fold dirs d x n : evaluation content files prefix include_random before test fold dirs ->
  dict_get before ("fold_" ++ decimal fold)%string = None -> dict_get dirs ("fold_" ++ decimal fold)%string = Some d ->
  ~ In x test -> In n (item_files x) -> include_random = false \/ ~ walk_name n -> dict_get d n = None.
Proof.
  intros (d0 & G & A & B) BE GD NX IN R. rewrite G in GD. injection GD as <-. rewrite B; [rewrite BE; reflexivity| |exact R]. intros y IY _ IN'. rewrite (item_inj _ _ _ IN IN') in NX. contradiction.
Qed.

(** ** Failures *)
Theorem no_first_iteration shuffle fifth sample walks (w : cworld content) n_split size a algs l triplets include_random : shuffles shuffle -> samples sample ->
  let files := dw_files _ (cw_base _ w) in complete content domain prefix matching files -> dw_config _ (cw_base _ w) = DNoFile -> l <> [] -> ~ In 1 l ->
  let n := used (length (matching files)) size in 2 <= n_split <= n ->
  prepare_experiment content shuffle fifth domain matching sample n_split (a :: algs) (Some l) triplets walks prefix include_random size w = Err KeyError.
Proof.
  intros SH SA files C NC NE N1 n NS. pose proof C as (C1 & C2 & C3 & _). set (b0 := remove_dfolds content (cw_base _ w)).
  assert (RD : dready content domain matching b0) by (split; [reflexivity|]; split; [reflexivity|]; split; [exact C2|]; split; [exact C1|exact C3]).
  destruct (C92_folds shuffle fifth SH content domain matching sample SA b0 n_split size false (a :: algs) (Some l) triplets true false RD) as (b1 & items & tests & E & _ & _ & _ & LT & _ & _ & _ & _ & _ & NO & F1 & _); [intros X; injection X as ->; contradiction|exact NS|unfold b0, remove_dfolds; cbn; rewrite NC; exact I|right; exact NC|].
  unfold prepare_experiment, create_folds_from_cross_validation. fold b0. cbn [negb]. rewrite E. cbn [bind]. unfold create_random_performance_evaluation_trajectories. destruct n_split as [|k]; [lia|]. cbn [seq fold_res]. unfold create_evaluation at 1. cbn [cw_base].
  change ("fold_" ++ decimal 0 ++ "_" ++ decimal a ++ "_1")%string with (iteration_name 0 a 1).
  destruct (dict_get (dw_test _ b1) (iteration_name 0 a 1)) as [d|] eqn:G; [|reflexivity]. exfalso. apply dict_get_key in G. destruct (NO _ G) as [(j & test & b & sel & NJ & IB & W)|(l' & j & b & _ & LJ & IB & X)].
  - remember (iteration_name 0 a 1) as nm eqn:EN. destruct W as [E0|l0 m E0 IM]; [discriminate|]. injection E0 as <-. apply words_inj in EN; [|discriminate|discriminate|repeat constructor; apply decimal_no_under|repeat constructor; apply decimal_no_under].
    injection EN as _ _ EN. apply (decimal_inj m 1) in EN. subst m. contradiction.
  - apply words_inj in X; [|discriminate|discriminate|repeat constructor; apply decimal_no_under|repeat constructor; apply decimal_no_under]. discriminate X.
Qed.
End Whole.
