(** * C95, C06: experiments on transitions *)
From Coq Require Import QArith.
From Verif Require Import TripletSpec TripletProofs TripletFinal.
Open Scope string_scope. Open Scope list_scope. Open Scope nat_scope.

(** ** C95 *)
(** Every trajectory is cut into pieces of [k] transitions each; fewer than [k] transitions at its end are lost. *)
Theorem C95_pieces {C} agents (train : list (observation C)) k : 0 < k ->
  exists pieces, create_transitions_based_training_set agents train k = Ok (concat pieces) /\ Forall2 (pieces_of k agents) train pieces.
Proof. exact (cut_ok agents train k). Qed.
Print Assumptions C95_pieces.

(** The transitions of one agent keep their place; the others are replaced by the last transition of one agent before them, if there is one. *)
Theorem C95_baseline_trajectory o : Forall acting (o_components o) ->
  exists s t n, filter_baseline o = Ok (s, t, n) /\ o_objects s = o_objects o /\
    (forall c, In c (o_components s) <-> In c (alone_transitions (o_components o))) /\
    (forall i c, nth_error (o_components s) i = Some c ->
       latest (firstn (S (length (o_components o) - length (o_components s) + i)) (o_components o)) c) /\
    length (o_components s) <= length (o_components o) /\
    (forall i j, nth_error (o_components o) i = Some j -> i < length (o_components o) - length (o_components s) -> together j) /\
    (forall j, nth_error (o_components o) (length (o_components o) - length (o_components s)) = Some j -> exists c, j_calls j = [c]) /\
    number (fun j => exists c, j_calls j = [c]) (o_components o) t /\ number together (o_components o) n.
Proof. exact (filter_baseline_spec o). Qed.
Print Assumptions C95_baseline_trajectory.

(** A transition without any action stops the filter. *)
Theorem C95_baseline_trajectory_idle o : ~ Forall acting (o_components o) -> filter_baseline o = Err IndexError.
Proof. exact (filter_err o). Qed.
Print Assumptions C95_baseline_trajectory_idle.

(** A finished run: the models, the backups and what the evaluations were given. *)
Theorem C95_experiment alg alg_name domain_name dom fold_num agents train w :
  (alg = Sam -> wf_domain dom /\ blank_domain dom) ->
  admissible alg dom (transitions (triplets_per_experiment domain_name) train) ->
  run_action_triplets_experiment alg alg_name domain_name dom fold_num agents train = (w, None) ->
  (exists ds, experiment alg alg_name domain_name dom fold_num (triplets_per_experiment domain_name) (iterations_to_run domain_name - 1)
                (transitions (triplets_per_experiment domain_name) train) w ds) /\
  (alg = Sam -> described (transitions (triplets_per_experiment domain_name) train) (w_dataset w)).
Proof. exact (run_experiment alg alg_name domain_name dom fold_num agents train w). Qed.
Print Assumptions C95_experiment.

(** The baseline finishes if somewhere several agents act and nowhere none does. *)
Theorem C95_baseline_finishes alg_name domain_name dom fold_num agents train :
  let T := transitions (triplets_per_experiment domain_name) train in
  wf_domain dom -> blank_domain dom -> good_calls dom (alone_transitions T) -> no_constant_calls dom (alone_transitions T) ->
  Forall acting T -> (exists j, In j T /\ together j) ->
  exists w, run_action_triplets_experiment Sam alg_name domain_name dom fold_num agents train = (w, None).
Proof. exact (run_sam_total Sam alg_name domain_name dom fold_num agents train eq_refl). Qed.
Print Assumptions C95_baseline_finishes.

(** MA-SAM finishes on a domain without constants. *)
Theorem C95_ma_sam_finishes alg_name domain_name dom fold_num agents train real :
  let T := transitions (triplets_per_experiment domain_name) train in
  d_consts dom = [] -> wf_domain dom -> blank_domain dom -> real_domain dom real -> good_joints dom T -> real_joints real T ->
  exists w, run_action_triplets_experiment MaSam alg_name domain_name dom fold_num agents train = (w, None).
Proof. exact (run_ma_total MaSam alg_name domain_name dom fold_num agents train real eq_refl). Qed.
Print Assumptions C95_ma_sam_finishes.

(** The baseline never gets to learn if no two agents act together. *)
Theorem C95_baseline_alone_refuted alg_name domain_name dom fold_num agents train :
  let T := transitions (triplets_per_experiment domain_name) train in
  Forall acting T -> (forall j, In j T -> ~ together j) ->
  exists t, run_action_triplets_experiment Sam alg_name domain_name dom fold_num agents train =
    (mkWorld [] None [] [] [] (Some (t, 0, None)), Some ZeroDivisionError).
Proof. exact (run_sam_division Sam alg_name domain_name dom fold_num agents train eq_refl). Qed.
Print Assumptions C95_baseline_alone_refuted.

(** With a constant, the file for the first [k * i] transitions holds the model of the last [k] of them only. *)
Theorem C95_ma_sam_constant_refuted alg_name domain_name dom fold_num agents train real :
  let k := triplets_per_experiment domain_name in let n := iterations_to_run domain_name - 1 in let T := transitions k train in
  wf_domain dom -> blank_domain dom -> real_domain dom real -> length (d_consts dom) = 1 ->
  good_joints dom T -> real_joints real T -> no_constant_joints dom T ->
  (forall j, In j T -> joint_learnable j /\ acting j /\ forall c, In c (j_calls j) -> two_atoms dom c) ->
  exists w ds, run_action_triplets_experiment MaSam alg_name domain_name dom fold_num agents train = (w, None) /\
    Forall2 (fun i d => model_of MaSam dom i (firstn k (skipn (k * (i - 1)) T)) d) (seq 1 n) ds /\
    forall i d, In (i, d) (combine (seq 1 n) ds) -> (forall i', i < i' <= n -> firstn (k * i') T <> firstn (k * i) T) ->
      dict_get (w_backups w) (backup_name alg_name domain_name fold_num (length (firstn (k * i) T))) = Some d.
Proof. exact (fun W B RD H1 => run_constant alg_name domain_name dom fold_num agents train real W B RD H1). Qed.
Print Assumptions C95_ma_sam_constant_refuted.

(** If there are fewer pieces than iterations, the file for all transitions holds the model of no transition. *)
Theorem C95_ma_sam_constant_last_refuted alg_name domain_name dom fold_num agents train real :
  let k := triplets_per_experiment domain_name in let n := iterations_to_run domain_name - 1 in let T := transitions k train in
  wf_domain dom -> blank_domain dom -> real_domain dom real -> length (d_consts dom) = 1 ->
  good_joints dom T -> real_joints real T -> no_constant_joints dom T ->
  (forall j, In j T -> joint_learnable j /\ acting j /\ forall c, In c (j_calls j) -> two_atoms dom c) ->
  length T <= k * (n - 1) ->
  exists w d, run_action_triplets_experiment MaSam alg_name domain_name dom fold_num agents train = (w, None) /\
    dict_get (w_backups w) (backup_name alg_name domain_name fold_num (length T)) = Some d /\ model_of MaSam dom n [] d.
Proof. exact (fun W B RD H1 => run_constant_last alg_name domain_name dom fold_num agents train real W B RD H1). Qed.
Print Assumptions C95_ma_sam_constant_last_refuted.

(** ** C06 *)
(** The learned model depends only on which transitions there are, however often and in whatever order they come. *)
Theorem C06_same_components dom policy inj obs obs' L L' rep rep' :
  wf_domain dom -> blank_domain dom -> good_calls dom (concat obs) -> unambiguous dom (concat obs) ->
  (forall c, In c (concat obs) <-> In c (concat obs')) ->
  learn_action_model (init_learner dom policy inj) obs = Ok (L, rep) ->
  learn_action_model (init_learner dom policy inj) obs' = Ok (L', rep') ->
  same_model (s_dom L) (s_dom L').
Proof. exact (same_set_model dom policy inj obs obs' L L' rep rep'). Qed.
Print Assumptions C06_same_components.
