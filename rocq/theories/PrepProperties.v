(** * Property C101: preparing a distributed experiment

    Only theorems; every proof is a reference to a lemma.  Specification: PrepSpec.v and DfoldSpec.v. *)
From Verif Require Import DfoldSpec FoldSpec PrepModel PrepSpec PrepFinal Prelude PreludeProofs.
Open Scope string_scope. Open Scope list_scope. Open Scope nat_scope.

(** The script on a directory without settings, and run again: whatever is drawn the second time, and for whatever algorithms, the folds stay. *)
Theorem C101_prepared (content : Type) (domain prefix : string) (matching : dir content -> list string) shuffle fifth sample walks (w : cworld content) n_split size a algs iterations triplets include_random :
  shuffles shuffle -> samples sample -> only_walks content walks ->
  let files := dw_files _ (cw_base _ w) in complete content domain prefix matching files -> dw_config _ (cw_base _ w) = DNoFile -> (iterations = None \/ exists l, iterations = Some l /\ In 1 l) ->
  let n := used (length (matching files)) size in 2 <= n_split <= n ->
  exists w' items tests, prepare_experiment content shuffle fifth domain matching sample n_split (a :: algs) iterations triplets walks prefix include_random size w = Ok (w', None) /\
    NoDup items /\ incl items (matching files) /\ length items = n /\ length tests = n_split /\ (forall x, In x items -> in_exactly_one x tests) /\ Forall (fun t => incl t items) tests /\
    experiment content files domain items tests (a :: algs) iterations (cw_base _ w') /\
    (forall j test, nth_error tests j = Some test -> evaluation content files prefix include_random (cw_evaluation _ w) test j (cw_evaluation _ w')) /\
    (forall name, (forall j, j < n_split -> name <> ("fold_" ++ decimal j)%string) -> dict_get (cw_evaluation _ w') name = dict_get (cw_evaluation _ w) name) /\ dw_files _ (cw_base _ w') = files /\
    forall shuffle' fifth' sample' walks' size' a' algs' triplets' include', only_walks content walks' -> exists w'',
      prepare_experiment content shuffle' fifth' domain matching sample' n_split (a' :: algs') iterations triplets' walks' prefix include' size' w' = Ok (w'', None) /\
      experiment content files domain items tests (a' :: algs') iterations (cw_base _ w'') /\
      (forall j test, nth_error tests j = Some test -> evaluation content files prefix include' (cw_evaluation _ w') test j (cw_evaluation _ w'')) /\ dw_files _ (cw_base _ w'') = files.
Proof. exact (prepared content domain prefix matching shuffle fifth sample walks w n_split size a algs iterations triplets include_random). Qed.
Print Assumptions C101_prepared.

(** In an evaluation directory that was not there before, there is no file of an item outside of the fold's test set. *)
Theorem C101_separate (content : Type) (prefix : string) files include_random before test fold dirs d x n : evaluation content files prefix include_random before test fold dirs ->
  dict_get before ("fold_" ++ decimal fold)%string = None -> dict_get dirs ("fold_" ++ decimal fold)%string = Some d ->
  ~ In x test -> In n (item_files x) -> include_random = false \/ ~ walk_name n -> dict_get d n = None.
Proof. exact (separate content prefix files include_random before test fold dirs d x n). Qed.
Print Assumptions C101_separate.

(** Numbers of trajectories without 1: the folds are created, their evaluation is not. *)
Theorem C101_no_first_iteration (content : Type) (domain prefix : string) (matching : dir content -> list string) shuffle fifth sample walks (w : cworld content) n_split size a algs l triplets include_random :
  shuffles shuffle -> samples sample -> let files := dw_files _ (cw_base _ w) in complete content domain prefix matching files -> dw_config _ (cw_base _ w) = DNoFile -> l <> [] -> ~ In 1 l ->
  let n := used (length (matching files)) size in 2 <= n_split <= n ->
  prepare_experiment content shuffle fifth domain matching sample n_split (a :: algs) (Some l) triplets walks prefix include_random size w = Err KeyError.
Proof. exact (no_first_iteration content domain prefix matching shuffle fifth sample walks w n_split size a algs l triplets include_random). Qed.
Print Assumptions C101_no_first_iteration.
