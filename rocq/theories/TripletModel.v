(** * Experiments on transitions

    Model of experiments/concurrent_execution/parallel_basic_experiment_runner.py 126-188,
    parallel_multi_agent_experiment_runner.py 50-95, 134-212 and parallel_multi_agent_experiment_runner_with_triplets.py 47-102.

    Parsing, solving and the computation of the scores are not modelled: the world keeps what they are given.
    [Domain.shallow_copy] (pddl_plus_parser) is trusted to give actions that are not shared with the original. *)
From Coq Require Import QArith.
From Verif Require Export MacroModel TextModel.
Open Scope string_scope. Open Scope list_scope. Open Scope nat_scope.

(** [Observation] and [MultiAgentObservation] of pddl_plus_parser; the latter knows its agents. *)
Record observation (C : Type) := mkObservation { o_objects : list pobject; o_components : list C; o_agents : option (list string) }.
Arguments mkObservation {C}. Arguments o_objects {C}. Arguments o_components {C}. Arguments o_agents {C}.

(** [range(0, n, k)] *)
Definition range_step (n k : nat) : list nat := map (fun i => i * k) (seq 0 ((n + k - 1) / k)).
(** parallel_basic_experiment_runner.py 145-154: the slices, until one is too short *)
Fixpoint slices {C} (k : nat) (components : list C) (starts : list nat) : list (list C) :=
  match starts with
  | [] => []
  | i :: starts =>
      let part := firstn k (skipn i components) in
      if length part <? k then [] else part :: slices k components starts
  end.
(** 126-156 [create_transitions_based_training_set] *)
Definition create_transitions_based_training_set {C} (agents : option (list string)) (train : list (observation C)) (k : nat)
  : res (list (observation C)) :=
  let* parts := map_res (fun o => match k with
                                  | 0 => Err ZeroDivisionError
                                  | _ => Ok (map (fun cs => mkObservation (o_objects o) cs agents)
                                                 (slices k (o_components o) (range_step (length (o_components o)) k)))
                                  end) train in
  Ok (concat parts).

(** parallel_multi_agent_experiment_runner.py 73-93, one component: the components so far, the two counts.
    [Observation.add_component] marks every component as successful. *)
Definition filter_component (acc : list component * nat * nat) (j : joint) : res (list component * nat * nat) :=
  let '(cs, trivial, non_trivial) := acc in
  if 1 <? length (j_calls j) then
    let non_trivial := S non_trivial in
    match rev cs with
    | [] => Ok (cs, trivial, non_trivial)
    | c :: _ => Ok (cs ++ [mkComp (cp_prev c) (cp_call c) (cp_next c) true], trivial, non_trivial)
    end
  else
    let trivial := S trivial in
    match j_calls j with
    | [] => Err IndexError
    | c :: _ => Ok (cs ++ [mkComp (j_prev j) c (j_next j) true], trivial, non_trivial)
    end.
(** 63-95 [_filter_baseline_single_agent_trajectory] *)
Definition filter_baseline (o : observation joint) : res (observation component * nat * nat) :=
  let* (r, n) := fold_res filter_component (o_components o) ([], 0, 0) in
  let '(cs, t) := r in
  Ok (mkObservation (o_objects o) cs None, t, n).

(** ** Learning that changes the calls of its observations (multi_agent_sam.py 144-145) *)

(** multi_agent_sam.py:188-211 *)
Definition update_single_in_place (M : ma_learner) (c : call) : res (ma_learner * call) :=
  let* L1 := observe_call (m_sam M) c (fst (m_snap M)) in
  let* cs1 := add_must_be_effects_to_cnf (s_dom L1) (m_cnfs M) c (all_effects (m_snap M)) in
  let '(not_effects, c') := extract_relevant_not_effects (s_dom L1) (snd (m_snap M)) c in
  let* cs2 := add_not_effects_to_cnf (s_dom L1) cs1 c' not_effects in
  Ok (mkMa L1 cs2 (m_snap M) (m_unsafe M), c').
(** multi_agent_sam.py:213-247 *)
Definition update_multiple_in_place (M : ma_learner) (j : joint) : res (ma_learner * list call) :=
  let* M1 := observe_calls M j in
  let dom := s_dom (m_sam M1) in
  let* acc := not_effects_loop dom (snd (m_snap M1)) (j_calls j) (m_cnfs M1) in
  let* acc' := effects_loop dom (all_effects (m_snap M1)) acc in
  Ok (with_cnfs M1 (fst acc'), snd acc').
(** multi_agent_sam.py:249-273 *)
Definition handle_joint_in_place (M : ma_learner) (j : joint) : res (ma_learner * joint) :=
  let* (L1, dup) := verify_all (m_sam M) (j_calls j) in
  let M1 := with_sam M L1 in
  if (dup : bool) then Ok (M1, j)
  else match j_calls j with
       | [c] => let* snap := triplet_snapshot (s_dom L1) (j_prev j) (j_next j) c in
                let* (M2, c') := update_single_in_place (with_snap M1 snap) c in
                Ok (M2, mkJoint (j_prev j) [c'] (j_next j))
       | _ => let* (M2, calls) := update_multiple_in_place M1 j in
              Ok (M2, mkJoint (j_prev j) calls (j_next j))
       end.
(** multi_agent_sam.py:310-313 *)
Definition learn_joint_list (M : ma_learner) (js : list joint) : res (ma_learner * list joint) :=
  fold_res (fun (acc : ma_learner * list joint) j =>
              let* (M', j') := handle_joint_in_place (fst acc) j in Ok (M', snd acc ++ [j'])) js (M, []).
Definition learn_observations_in_place (M : ma_learner) (obs : list (observation joint)) : res (ma_learner * list (observation joint)) :=
  fold_res (fun (acc : ma_learner * list (observation joint)) o =>
              let* (M', js) := learn_joint_list (fst acc) (o_components o) in
              Ok (M', snd acc ++ [mkObservation (o_objects o) js (o_agents o)])) obs (M, []).

(** ** The experiment *)

(** parallel_multi_agent_experiment_runner_with_triplets.py: the algorithms of the command line, 1, 7 and 25.
    [uuids i g] is drawn for the [g]-th group in the [i]-th iteration. *)
Inductive algorithm := Sam | MaSam | MaSamPlus (uuids : nat -> nat -> string).

(** parallel_multi_agent_experiment_runner.py 134-167: the learned domain and the observations afterwards *)
Definition learn (alg : algorithm) (dom : domain) (index : nat) (obs : list (observation joint)) (single : list (observation component))
  : res (domain * list (observation joint)) :=
  let M0 := initialize_cnfs (init_ma dom no_remove) in
  let M1 := with_sam M0 (deduce_initial_inequality_preconditions (m_sam M0)) in
  match alg with
  | Sam => let* (L, _) := learn_action_model (init_learner dom no_remove true) (map o_components single) in Ok (s_dom L, obs)
  | MaSam =>
      let* (M2, obs') := learn_observations_in_place M1 obs in
      let* M3 := construct_safe_actions true M2 in
      Ok (s_dom (handle_negative_preconditions_policy (m_sam M3)), obs')
  | MaSamPlus uuids =>
      let* (M2, obs') := learn_observations_in_place M1 obs in
      let* M3 := construct_safe_actions false M2 in
      let* (M4, _) := construct_safe_macro_actions (uuids index) M3 in
      Ok (s_dom (handle_negative_preconditions_policy (m_sam M4)), obs')
  end.

(** The backup directory and the domain in the test set directory; what the statistics, the validator and the semantic scores were
    given, in order; the file about the data set: the two numbers and, unless the division failed, their ratio. *)
Record world := mkWorld
  { w_backups : list (string * domain); w_test : option domain;
    w_stats : list (list (observation joint) * domain);
    w_solved : list (list (observation joint) * domain);
    w_performance : list (nat * domain);
    w_dataset : option (nat * nat * option Q) }.
Definition no_world : world := mkWorld [] None [] [] [] None.

Section Runner.
Variables (alg : algorithm) (alg_name domain_name : string) (dom : domain) (fold_num : nat) (agents : list string).

Definition triplets_of (obs : list (observation joint)) : nat := list_sum (map (fun o => length (o_components o)) obs).
(** parallel_basic_experiment_runner.py 178-187: the name of the backup *)
Definition backup_name (triplets : nat) : string :=
  (alg_name ++ "_fold_" ++ decimal fold_num ++ "_" ++ domain_name ++ "_" ++ decimal triplets ++ "_triplets_no_remove_policy.pddl")%string.

(** parallel_multi_agent_experiment_runner.py 169-212 [_learn_model_offline] *)
Definition learn_model_offline (index : nat) (obs : list (observation joint)) (single : list (observation component)) (w : world)
  : world * res (list (observation joint)) :=
  match learn alg dom index obs single with
  | Err e => (w, Err e)
  | Ok (d, obs') =>
      let scored := match alg with MaSamPlus _ => false | _ => true end in
      (mkWorld (dict_set (w_backups w) (backup_name (triplets_of obs)) d) (Some d)
               (if scored then w_stats w ++ [(obs, d)] else w_stats w)
               (w_solved w ++ [(obs, d)])
               (if scored then w_performance w ++ [(length obs, d)] else w_performance w)
               (w_dataset w), Ok obs')
  end.

(** with_triplets.py 86-98: the loop; [obs] is the training set as the learners left it *)
Fixpoint iterations (indexes : list nat) (obs : list (observation joint)) (single : list (observation component)) (w : world)
  : world * option exc :=
  match indexes with
  | [] => (w, None)
  | i :: indexes =>
      match learn_model_offline i (firstn i obs) (firstn i single) w with
      | (w, Err e) => (w, Some e)
      | (w, Ok obs') => iterations indexes (obs' ++ skipn i obs) single w
      end
  end.

(** with_triplets.py 19-22, 59-61, 83-85 *)
Definition large : bool := memb domain_name ["rover"; "grid_overcooked"].
Definition triplets_per_experiment : nat := if large then 10 else 5.
Definition iterations_to_run : nat := if large then 101 else 21.

(** parallel_multi_agent_experiment_runner.py 50-61 [_export_dataset_statistics] *)
Definition export_dataset_statistics (trivial non_trivial : nat) (w : world) : world * option exc :=
  let ratio := match non_trivial with
               | 0 => None
               | _ => Some (inject_Z (Z.of_nat trivial) / inject_Z (Z.of_nat non_trivial))%Q
               end in
  (mkWorld (w_backups w) (w_test w) (w_stats w) (w_solved w) (w_performance w) (Some (trivial, non_trivial, ratio)),
   match non_trivial with 0 => Some ZeroDivisionError | _ => None end).

(** with_triplets.py 47-102 [run_action_triplets_experiment], from the collected observations on *)
Definition run_action_triplets_experiment (train : list (observation joint)) : world * option exc :=
  match create_transitions_based_training_set (Some agents) train triplets_per_experiment with
  | Err e => (no_world, Some e)
  | Ok chunks =>
      let indexes := seq 1 (iterations_to_run - 1) in
      match alg with
      | Sam =>
          match map_res filter_baseline chunks with
          | Err e => (no_world, Some e)
          | Ok filtered =>
              let single := map (fun r => fst (fst r)) filtered in
              let trivial := list_sum (map (fun r => snd (fst r)) filtered) in
              let non_trivial := list_sum (map snd filtered) in
              match export_dataset_statistics trivial non_trivial no_world with
              | (w, Some e) => (w, Some e)
              | (w, None) => iterations indexes chunks single w
              end
          end
      | _ => iterations indexes chunks [] no_world
      end
  end.
End Runner.
