(** * Properties C43 and C45: cross validation folds, dummy actions

    Only theorems; every proof is a reference to a lemma.  Specifications: FoldSpec.v, DummySpec.v. *)
From Verif Require Import FoldModel FoldSpec FoldProofs DummyModel DummySpec DummyProofs Prelude PreludeProofs.
Open Scope string_scope. Open Scope list_scope. Open Scope nat_scope.

(** For every number of items and of folds: disjoint train and test sets that cover all the items, every item tested in
    exactly one fold, test sets whose sizes differ by at most one. *)
Theorem C43_indices (shuffle : nat -> list nat) (fifth : nat -> nat) : shuffles shuffle -> forall n k, 2 <= k -> k <= n ->
  exists folds, create_test_set_indices shuffle fifth n k false = Ok folds /\
    length folds = k /\ Forall (splits n) folds /\ (forall i, i < n -> in_exactly_one i (map snd folds)) /\
    Forall (fun tt => length (snd tt) = n / k \/ length (snd tt) = n / k + 1) folds.
Proof. exact (kfold_ok shuffle fifth). Qed.
Print Assumptions C43_indices.

(** Fewer than two folds, or more folds than items, are refused. *)
Theorem C43_refused (shuffle : nat -> list nat) (fifth : nat -> nat) n k : k < 2 \/ n < k -> create_test_set_indices shuffle fifth n k false = Err ValueError.
Proof. exact (kfold_error shuffle fifth n k). Qed.
Print Assumptions C43_refused.

(** A single train and test split. *)
Theorem C43_train_test (shuffle : nat -> list nat) (fifth : nat -> nat) : shuffles shuffle -> forall n k, fifth n < n ->
  exists tt, create_test_set_indices shuffle fifth n k true = Ok [tt] /\ splits n tt /\ length (snd tt) = fifth n.
Proof. exact (single_ok shuffle fifth). Qed.
Print Assumptions C43_train_test.

(** The directories that are created: each fold's test directory holds exactly the problems and trajectories of its test
    items, its train directory the domain and exactly those of the other items; every item is tested in exactly one fold;
    nothing is left behind; and the recorded folds are reloaded to the same directories, whatever the parameters are then. *)
Theorem C43_folds (shuffle : nat -> list nat) (fifth : nat -> nat) : shuffles shuffle ->
  forall (content : Type) (domain : string) (matching : dir content -> list string) (sample : list string -> nat -> list string), samples sample ->
  forall (w : world content) nexts n_split max_items one load, ready content domain matching w ->
  let n := used (length (matching (w_files _ w))) max_items in let k := folds_wanted n n_split one in
  possible fifth n n_split one -> earlier_settings k (w_config _ w) -> (load = false \/ w_config _ w = NoFile) -> k < nexts ->
  exists seen w' items tests, create_k_fold shuffle fifth content domain matching sample nexts n_split max_items one load w = Ok (seen, w', None) /\
    NoDup items /\ incl items (matching (w_files _ w)) /\ length items = n /\ length tests = k /\
    Forall2 (fold_for content (w_files _ w) domain items) tests seen /\
    (one = false -> forall x, In x items -> in_exactly_one x tests) /\
    w_files _ w' = w_files _ w /\ w_train _ w' = None /\ w_test _ w' = None /\
    forall nexts' n_split' max_items' one', k < nexts' -> exists seen',
      create_k_fold shuffle fifth content domain matching sample nexts' n_split' max_items' one' true w' = Ok (seen', w', None) /\
      Forall2 (fold_for content (w_files _ w) domain items) tests seen'.
Proof. exact (create_ok shuffle fifth). Qed.
Print Assumptions C43_folds.

(** Without a dummy in the goal: the last joint action is kept as it is; the ones before are dropped or get one dummy action
    instead of a no-op, in order.  Missing for the full statement: nothing is dropped (refuted in FoldExamples.v). *)
Theorem C45_plain_partial (pick_goal pick : nat -> list nat -> nat) (add delete : nat -> bool) (agents : list string) : picks_one pick ->
  forall plan, named agents plan -> exists front back, insert_dummy_actions_to_plan pick_goal pick add delete agents plan false = Ok (front ++ back) /\
    plan = firstn (length plan - 1) plan ++ back /\ thinned agents (firstn (length plan - 1) plan) front.
Proof. exact (insert_plain pick_goal pick add delete agents). Qed.
Print Assumptions C45_plain_partial.

(** With a dummy in the goal: the last joint action with an idle agent gets an add dummy, all that follows is kept as it is. *)
Theorem C45_goal_partial (pick_goal pick : nat -> list nat -> nat) (add delete : nat -> bool) (agents : list string) : picks_one pick_goal -> picks_one pick ->
  forall plan before j after, named agents plan -> plan = before ++ j :: after -> idle j -> (forall k, In k after -> ~ idle k) ->
  exists front j', insert_dummy_actions_to_plan pick_goal pick add delete agents plan true = Ok (front ++ j' :: after) /\
    thinned agents before front /\ replaced agents "dummy-add-predicate-action" j j'.
Proof. exact (insert_goal pick_goal pick add delete agents). Qed.
Print Assumptions C45_goal_partial.

(** When every draw adds a dummy and every joint action has an idle agent, nothing is dropped. *)
Theorem C45_kept_partial (pick_goal pick : nat -> list nat -> nat) (add delete : nat -> bool) (agents : list string) : picks_one pick ->
  forall plan, named agents plan -> (forall i, add i = true) -> (forall j, In j plan -> idle j) ->
  exists front, Forall2 (fun j j' => exists name, is_dummy name /\ replaced agents name j j') (firstn (length plan - 1) plan) front /\
    insert_dummy_actions_to_plan pick_goal pick add delete agents plan false = Ok (front ++ skipn (length plan - 1) plan).
Proof. exact (insert_keeps pick_goal pick add delete agents). Qed.
Print Assumptions C45_kept_partial.
