(** * Property C92: the folds of a distributed experiment

    Only theorems; every proof is a reference to a lemma.  Specification: DfoldSpec.v. *)
From Verif Require Import DfoldModel DfoldSpec DfoldFinal FoldModel FoldSpec Prelude PreludeProofs.
Open Scope string_scope. Open Scope list_scope. Open Scope nat_scope.

(** Creating the folds from the files, and creating them again from the recorded settings. *)
Theorem C92_folds (shuffle : nat -> list nat) (fifth : nat -> nat) : shuffles shuffle ->
  forall (content : Type) (domain : string) (matching : dir content -> list string) (sample : list string -> nat -> list string), samples sample ->
  let create := create_distributed_k_fold shuffle fifth content domain matching sample in
  forall (w : dworld content) n_split max_items one algs iterations triplets load ignore, dready content domain matching w -> some_iteration iterations ->
  let n := used (length (matching (dw_files _ w))) max_items in let k := dfolds n_split one in
  dpossible fifth n n_split one -> earlier_dsettings k (dw_config _ w) -> (load = false \/ dw_config _ w = DNoFile) ->
  exists w' items tests, create n_split one algs iterations triplets w max_items load ignore = Ok (w', None) /\
    NoDup items /\ incl items (matching (dw_files _ w)) /\ length items = n /\ length tests = k /\ Forall (fun t => incl t items) tests /\
    (one = false -> forall x, In x items -> in_exactly_one x tests) /\
    experiment content (dw_files _ w) domain items tests algs iterations w' /\ new_triplets content (dw_files _ w) domain items tests algs iterations w' /\
    no_others content items tests algs iterations (dw_train _ w') triplets_train_name /\ no_others content items tests algs iterations (dw_test _ w') triplets_test_name /\
    dw_files _ w' = dw_files _ w /\
    forall n_split' one' algs' iterations' triplets' max_items' ignore', exists w'',
      create n_split' one' algs' iterations' triplets' (remove_dfolds content w') max_items' true ignore' = Ok (w'', None) /\
      (ignore' = false -> experiment content (dw_files _ w) domain items tests algs' iterations w'') /\
      (ignore' = true -> ignoring content (dw_files _ w) domain items tests algs' iterations w'') /\
      (triplets' = true -> loaded_triplets content (dw_files _ w) domain items tests algs' iterations w'') /\ dw_files _ w'' = dw_files _ w.
Proof. exact (create_dok shuffle fifth). Qed.
Print Assumptions C92_folds.
