(** * Model of sam_learning/learners/multi_agent_sam.py *)
From Verif Require Export SamModel CnfModel.

(** [MultiAgentComponent]: states and the operational (non-nop) calls of the joint action
    ([JointActionCall.operational_actions]; [action_count] is their number). *)
Record joint := mkJoint { j_prev : state; j_calls : list call; j_next : state }.

(** multi_agent_sam.py:31-42 [__init__].  [m_cnfs] is [literals_cnf]: its keys, the untyped representations
    of the lifted predicates of the domain and their negations, are modelled by name and polarity.
    [m_snap] holds [triplet_snapshot.previous_state_predicates] and [next_state_predicates]. *)
Record ma_learner := mkMa
  { m_sam : learner;
    m_cnfs : list ((string * bool) * cnf);
    m_snap : list literal * list literal;
    m_unsafe : list string }.

Definition init_ma (dom : domain) (policy : neg_policy) : ma_learner :=
  mkMa (init_learner dom policy true) [] ([], []) [].

Definition with_sam (M : ma_learner) (L : learner) : ma_learner := mkMa L (m_cnfs M) (m_snap M) (m_unsafe M).
Definition with_cnfs (M : ma_learner) (cs : list ((string * bool) * cnf)) : ma_learner := mkMa (m_sam M) cs (m_snap M) (m_unsafe M).
Definition with_snap (M : ma_learner) (s : list literal * list literal) : ma_learner := mkMa (m_sam M) (m_cnfs M) s (m_unsafe M).

(** multi_agent_sam.py:44-50 [_initialize_cnfs]. *)
Definition initialize_cnfs (M : ma_learner) : ma_learner :=
  let dom := s_dom (m_sam M) in
  let fresh := init_cnf (dict_keys (d_actions dom)) in
  with_cnfs M (fold_left (fun cs (p : string * signature) =>
                            dict_set (dict_set cs (fst p, true) fresh) (fst p, false) fresh)
                         (d_preds dom) (m_cnfs M)).

(** multi_agent_sam.py:144-145: the call's own parameter list is extended in place by the constants. *)
Definition extend_call (dom : domain) (c : call) : call :=
  mkCall (c_name c) (c_params c ++ dict_keys (d_consts dom)).

(** multi_agent_sam.py:134-154 [compute_interacting_actions]: the interacting calls and the mutated calls. *)
Definition compute_interacting (dom : domain) (g : literal) (calls : list call) : list call * list call :=
  let calls' := map (extend_call dom) calls in
  (filter (fun c => subsetb (l_args g) (c_params c)) calls', calls').

(** multi_agent_sam.py:52-84 [_extract_relevant_not_effects] for [executing_actions = [relevant_action]],
    the only way it is called: the literals and the mutated call. *)
Definition extract_relevant_not_effects (dom : domain) (next : list literal) (c : call) : list literal * call :=
  fold_left (fun (acc : list literal * call) g =>
               let '(interacting, calls') := compute_interacting dom g [snd acc] in
               match calls' with
               | [c'] => (if memb c' interacting then fst acc ++ [g] else fst acc, c')
               | _ => acc
               end)
            (map (copy_lit true) next) ([], c).

(** Calling a method of the CNF stored under the lifted version of [g]. *)
Definition on_cnf (cs : list ((string * bool) * cnf)) (g : literal) (f : cnf -> res cnf) : res (list ((string * bool) * cnf)) :=
  let* k := dict_lookup cs (l_name g, l_pos g) in
  let* k' := f k in
  Ok (dict_set cs (l_name g, l_pos g) k').

(** multi_agent_sam.py:104-116 [add_not_effect_to_cnf]. *)
Definition add_not_effects_to_cnf (dom : domain) (cs : list ((string * bool) * cnf)) (c : call) (not_effects : list literal) :=
  fold_res (fun cs g =>
              let* m := get_injective_match dom g c in
              match m with
              | None => Ok cs
              | Some l => on_cnf cs g (fun k => add_not_effect k (c_name c) l)
              end) not_effects cs.

(** multi_agent_sam.py:118-132 [add_must_be_effect_to_cnf]. *)
Definition add_must_be_effects_to_cnf (dom : domain) (cs : list ((string * bool) * cnf)) (c : call) (effects : list literal) :=
  fold_res (fun cs g =>
              let* m := get_injective_match dom g c in
              match m with
              | None => Ok cs
              | Some l => on_cnf cs g (fun k => add_possible_effect k [(c_name c, l)])
              end) effects cs.

(** multi_agent_sam.py:169-186 [handle_concurrent_execution]; a missing match has no representation (line 184). *)
Definition handle_concurrent (dom : domain) (cs : list ((string * bool) * cnf)) (g : literal) (calls : list call)
  : res (list ((string * bool) * cnf) * list call) :=
  let '(interacting, calls') := compute_interacting dom g calls in
  match interacting with
  | [c] => let* cs' := add_must_be_effects_to_cnf dom cs c [g] in Ok (cs', calls')
  | _ =>
      let* clause := map_res (fun c => let* m := get_injective_match dom g c in
                                       match m with None => Err AttributeError | Some l => Ok (c_name c, l) end) interacting in
      let* cs' := on_cnf cs g (fun k => add_possible_effect k clause) in
      Ok (cs', calls')
  end.

(** multi_agent_sam.py:194-200, 223-234: preconditions and the list of observed actions. *)
Definition observe_call (L : learner) (c : call) (prev : list literal) : res learner :=
  let* a := dict_lookup (d_actions (s_dom L)) (c_name c) in
  if memb (c_name c) (s_observed L)
  then update_action_preconditions L c prev
  else let* L1 := add_new_action_preconditions L c prev in
       Ok (with_observed L1 (s_observed L1 ++ [a_name a])).

Definition all_effects (snap : list literal * list literal) : list literal :=
  let '(adds, dels) := extract_discrete_effects (fst snap) (snd snap) in set_union adds dels.

(** multi_agent_sam.py:188-211 [update_single_agent_executed_action]. *)
Definition update_single (M : ma_learner) (c : call) : res ma_learner :=
  let* L1 := observe_call (m_sam M) c (fst (m_snap M)) in
  let* cs1 := add_must_be_effects_to_cnf (s_dom L1) (m_cnfs M) c (all_effects (m_snap M)) in
  let '(not_effects, c') := extract_relevant_not_effects (s_dom L1) (snd (m_snap M)) c in
  let* cs2 := add_not_effects_to_cnf (s_dom L1) cs1 c' not_effects in
  Ok (mkMa L1 cs2 (m_snap M) (m_unsafe M)).

(** multi_agent_sam.py:222-234: first loop. *)
Definition observe_calls (M : ma_learner) (j : joint) : res ma_learner :=
  fold_res (fun M c =>
              let* snap := triplet_snapshot (s_dom (m_sam M)) (j_prev j) (j_next j) c in
              let* L1 := observe_call (m_sam M) c (fst snap) in
              Ok (mkMa L1 (m_cnfs M) snap (m_unsafe M))) (j_calls j) M.

(** multi_agent_sam.py:239-244: second loop. *)
Definition not_effects_loop (dom : domain) (next : list literal) (calls : list call) (cs : list ((string * bool) * cnf))
  : res (list ((string * bool) * cnf) * list call) :=
  fold_res (fun (acc : list ((string * bool) * cnf) * list call) c =>
              let '(not_effects, c') := extract_relevant_not_effects dom next c in
              let* cs' := add_not_effects_to_cnf dom (fst acc) c' not_effects in
              Ok (cs', snd acc ++ [c'])) calls (cs, []).

(** multi_agent_sam.py:246-247: third loop. *)
Definition effects_loop (dom : domain) (effects : list literal) (acc : list ((string * bool) * cnf) * list call)
  : res (list ((string * bool) * cnf) * list call) :=
  fold_res (fun acc g => handle_concurrent dom (fst acc) g (snd acc)) effects acc.

(** multi_agent_sam.py:213-247 [update_multiple_executed_actions].  The snapshot used by the last two loops
    is the one left by the last iteration of the first. *)
Definition update_multiple (M : ma_learner) (j : joint) : res ma_learner :=
  let* M1 := observe_calls M j in
  let dom := s_dom (m_sam M1) in
  let* acc := not_effects_loop dom (snd (m_snap M1)) (j_calls j) (m_cnfs M1) in
  let* acc' := effects_loop dom (all_effects (m_snap M1)) acc in
  Ok (with_cnfs M1 (fst acc')).

(** multi_agent_sam.py:258: [any([self._verify_parameter_duplication(a) for a in ...])], a list: all calls are checked. *)
Definition verify_all (L : learner) (calls : list call) : res (learner * bool) :=
  fold_res (fun (acc : learner * bool) c =>
              let* (L1, dup) := verify_parameter_duplication (fst acc) c in
              Ok (L1, snd acc || dup)) calls (L, false).

(** multi_agent_sam.py:249-273 [handle_multi_agent_trajectory_component]. *)
Definition handle_joint (M : ma_learner) (j : joint) : res ma_learner :=
  let* (L1, dup) := verify_all (m_sam M) (j_calls j) in
  let M1 := with_sam M L1 in
  if (dup : bool) then Ok M1
  else match j_calls j with
       | [c] => let* snap := triplet_snapshot (s_dom L1) (j_prev j) (j_next j) c in
                update_single (with_snap M1 snap) c
       | _ => update_multiple M1 j
       end.

(** multi_agent_sam.py:86-102 [_is_action_safe]. *)
Definition ma_action_safe (cs : list ((string * bool) * cnf)) (name : string) (pre : list literal) : res bool :=
  fold_res (fun ok (kc : (string * bool) * cnf) =>
              if (ok : bool) then
                let* acting := is_action_acting (snd kc) name in
                Ok (if (acting : bool) then is_action_safe (snd kc) name pre else true)
              else Ok false) cs true.

(** multi_agent_sam.py:156-167 [extract_effects_from_cnf].  Parsing the representation back into a literal
    (discrete_utilities.py:12-42) is the identity of the model. *)
Definition effects_from_cnf (cs : list ((string * bool) * cnf)) (name : string) (pre : list literal) : list literal :=
  flat_map (fun kc : (string * bool) * cnf => extract_action_effects (snd kc) name pre) cs.

(** multi_agent_sam.py:281-293, for one action: the action after the step, and whether it is safe. *)
Definition construct_action (cs : list ((string * bool) * cnf)) (a : action) : res (action * bool) :=
  let* safe := ma_action_safe cs (a_name a) (a_pre a) in
  Ok (if (safe : bool) then (with_eff a (set_union (a_eff a) (effects_from_cnf cs (a_name a) (a_pre a))), true) else (a, false)).

(** multi_agent_sam.py:275-297 [construct_safe_actions]; [should_remove_actions] defaults to true. *)
Definition construct_safe_actions (should_remove_actions : bool) (M : ma_learner) : res ma_learner :=
  let L1 := handle_unobserved_actions (m_sam M) in
  let* built := map_res (fun na : string * action =>
                           let* r := construct_action (m_cnfs M) (snd na) in Ok (fst na, r)) (d_actions (s_dom L1)) in
  let safe := map (fun nr : string * (action * bool) => a_name (fst (snd nr))) (filter (fun nr => snd (snd nr)) built) in
  let unsafe := map (fun nr : string * (action * bool) => a_name (fst (snd nr))) (filter (fun nr => negb (snd (snd nr))) built) in
  let acts := map (fun nr : string * (action * bool) => (fst nr, fst (snd nr))) built in
  let unsafe' := set_union (m_unsafe M) unsafe in
  let* acts' := if should_remove_actions
                then fold_res (fun acts n => let* _ := dict_lookup acts n in Ok (dict_pop acts n)) unsafe' acts
                else Ok acts in
  Ok (mkMa (mkLearner (set_actions (s_dom L1) acts') (s_observed L1) (s_safe L1 ++ safe) (s_cbe L1) (s_sigs L1) (s_policy L1) (s_injective L1))
           (m_cnfs M) (m_snap M) unsafe').

(** multi_agent_sam.py:310-313: the loop over the observations. *)
Definition learn_joints (M : ma_learner) (obs : list (list joint)) : res ma_learner :=
  fold_res (fun M o => fold_res handle_joint o M) obs M.

(** multi_agent_sam.py:299-320 [learn_combined_action_model]. *)
Definition learn_combined (M : ma_learner) (obs : list (list joint)) : res (ma_learner * list (string * verdict)) :=
  let M0 := initialize_cnfs M in
  let M1 := with_sam M0 (deduce_initial_inequality_preconditions (m_sam M0)) in
  let* M2 := learn_joints M1 obs in
  let* M3 := construct_safe_actions true M2 in
  let M4 := with_sam M3 (handle_negative_preconditions_policy (m_sam M3)) in
  Ok (M4, learning_report (m_sam M4)).
