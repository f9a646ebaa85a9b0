(** * Submitted jobs and the directories of their folds: proofs *)
From Coq Require Import Lia.
From Verif Require EpisodeProofs FoldModel DfoldModel DfoldSpec DfoldProofs DfoldFinal FoldSpec TextProofs.
From Verif Require Import CluModel CluSpec CluProofs Prelude PreludeProofs.
Open Scope string_scope. Open Scope list_scope. Open Scope nat_scope.

Import DfoldProofs.
Theorem directories (shuffle : nat -> list nat) (fifth : nat -> nat) : FoldSpec.shuffles shuffle ->
  forall (content : Type) (domain : string) (matching : FoldModel.dir content -> list string) (sample : list string -> nat -> list string), FoldSpec.samples sample ->
  forall (w : DfoldModel.dworld content) code script random e its f triplets load, configured e -> create_internal_iterations_list e = Ok its -> ex_versions e <> [] -> folder_job code random (e, its) f ->
  DfoldSpec.dready content domain matching w -> 5 <= FoldSpec.used (length (matching (DfoldModel.dw_files _ w))) (match ex_size e with Some n => n | None => 100 end) ->
  DfoldSpec.earlier_dsettings 5 (DfoldModel.dw_config _ w) -> load = false \/ DfoldModel.dw_config _ w = DfoldModel.DNoFile ->
  exists algorithms iterations size splits w' items, folder_creation (j_arguments f) = Ok (algorithms, iterations, size, splits) /\
    DfoldModel.create_distributed_k_fold shuffle fifth content domain matching sample splits false algorithms iterations triplets w size load false = Ok (w', None) /\
    incl items (matching (DfoldModel.dw_files _ w)) /\ NoDup items /\
    (forall fold version n j, fold < 5 -> In version (ex_versions e) -> In n its -> job_for script e fold version (Some n) j ->
       exists name test, numeric_runner (j_arguments j) = Ok (fold, version, n, name) /\ incl test items /\
         DfoldSpec.pair_for content (DfoldModel.dw_files _ w) domain w' name name (firstn n (DfoldSpec.rest_of items test)) test) /\
    (forall fold version n j, 5 <= fold -> In version (ex_versions e) -> job_for script e fold version (Some n) j ->
       exists name, numeric_runner (j_arguments j) = Ok (fold, version, n, name) /\ ~ In name (map fst (DfoldModel.dw_train _ w')) /\ ~ In name (map fst (DfoldModel.dw_test _ w'))).
Proof.
  intros SH content domain matching sample SA w code script random e its f triplets load C I V (_ & _ & _ & _ & FC) R U ES LD. cbn [fst snd] in FC. specialize (FC V (iterations_nonempty e its I)). set (size := match ex_size e with Some n => n | None => 100 end) in *.
  destruct (DfoldFinal.create_dok shuffle fifth SH content domain matching sample SA w 5 size false (ex_versions e) (Some its) triplets load false R) as (w' & items & tests & CR & ND & IN & LI & LT & TI & _ & EX & _ & NO & NO' & _).
  - intros H. injection H as H. exact (iterations_nonempty e its I H).
  - cbn. lia.
  - exact ES.
  - exact LD.
  - exists (ex_versions e), (Some its), size, 5, w', items. split; [exact FC|]. split; [exact CR|]. split; [exact IN|]. split; [exact ND|]. cbn in LT. split.
    + intros fold version n j FO IV INN J. exists (DfoldSpec.iteration_name fold version n). destruct (nth_error tests fold) as [test|] eqn:T; [|apply nth_error_None in T; lia].
      exists test. split; [exact (numeric_arguments script e fold version n j C IV J)|]. split; [rewrite Forall_forall in TI; apply TI; exact (nth_error_In _ _ T)|].
      apply (EX fold test version _ _ T IV). apply DfoldSpec.wanted_first with (l := its); [reflexivity|exact INN].
    + intros fold version n j FO IV J. exists (DfoldSpec.iteration_name fold version n). split; [exact (numeric_arguments script e fold version n j C IV J)|].
      assert (D : forall x, EpisodeProofs.no_under (decimal x) = true) by exact EpisodeProofs.decimal_no_under.
      split; intros H; [apply NO in H|apply NO' in H].
      * destruct H as [(j' & test & a & sel & T & _ & W)|(l & j' & a & _ & L & _ & E)].
        -- assert (j' < length tests) by (apply nth_error_Some; congruence). remember (DfoldSpec.iteration_name fold version n) as nm eqn:E. destruct W as [X|l m X Y]; [discriminate X|]. apply words_inj in E; [assert (E1 := f_equal (fun l => nth 1 l "") E); cbn [nth] in E1; clear E; rename E1 into E; apply TextProofs.decimal_inj in E; lia|discriminate|discriminate|repeat constructor; auto..].
        -- apply words_inj in E; [discriminate|discriminate|discriminate|repeat constructor; auto..].
      * destruct H as [(j' & test & a & sel & T & _ & W)|(l & j' & a & _ & L & _ & E)].
        -- assert (j' < length tests) by (apply nth_error_Some; congruence). remember (DfoldSpec.iteration_name fold version n) as nm eqn:E. destruct W as [X|l m X Y]; [discriminate X|]. apply words_inj in E; [assert (E1 := f_equal (fun l => nth 1 l "") E); cbn [nth] in E1; clear E; rename E1 into E; apply TextProofs.decimal_inj in E; lia|discriminate|discriminate|repeat constructor; auto..].
        -- apply words_inj in E; [discriminate|discriminate|discriminate|repeat constructor; auto..].
Qed.
