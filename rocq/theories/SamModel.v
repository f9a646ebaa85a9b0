(** * Model of sam_learning/learners/sam_learning.py *)
From Verif Require Export MatcherModel.

(** utilities/util_types.py [NegativePreconditionPolicy]. *)
Inductive neg_policy : Set := no_remove | soft | hard.

(** sam_learning.py:49-69 [__init__]: learner state.  [s_sigs] is [_action_signatures],
    [s_cbe] is [cannot_be_effect]. *)
Record learner := mkLearner
  { s_dom : domain;
    s_observed : list string;
    s_safe : list string;
    s_cbe : list (string * list literal);
    s_sigs : list (string * signature);
    s_policy : neg_policy;
    s_injective : bool }.

Definition init_learner (dom : domain) (policy : neg_policy) (injective : bool) : learner :=
  mkLearner dom [] []
    (map (fun na => (fst na, [])) (d_actions dom))
    (map (fun na => (fst na, a_sig (snd na))) (d_actions dom))
    policy injective.

Definition with_dom (L : learner) (d : domain) : learner :=
  mkLearner d (s_observed L) (s_safe L) (s_cbe L) (s_sigs L) (s_policy L) (s_injective L).
Definition with_observed (L : learner) (o : list string) : learner :=
  mkLearner (s_dom L) o (s_safe L) (s_cbe L) (s_sigs L) (s_policy L) (s_injective L).
Definition with_cbe (L : learner) (c : list (string * list literal)) : learner :=
  mkLearner (s_dom L) (s_observed L) (s_safe L) c (s_sigs L) (s_policy L) (s_injective L).
(** In-place mutation of [partial_domain.actions[name]]. *)
Definition put_action (L : learner) (name : string) (a : action) : learner :=
  with_dom L (set_actions (s_dom L) (dict_set (d_actions (s_dom L)) name a)).

Definition with_pre (a : action) (p : list literal) : action :=
  mkAct (a_name a) (a_sig a) p (a_ineq a) (a_eff a).
Definition with_ineq (a : action) (i : list (string * string)) : action :=
  mkAct (a_name a) (a_sig a) (a_pre a) i (a_eff a).
Definition with_eff (a : action) (e : list literal) : action :=
  mkAct (a_name a) (a_sig a) (a_pre a) (a_ineq a) e.

(** sam_learning.py:71-80 [_handle_unobserved_actions]. *)
Definition handle_unobserved_actions (L : learner) : learner :=
  with_dom L (set_actions (s_dom L)
    (map (fun na =>
            if memb (fst na) (s_observed L) then na
            else (fst na, with_pre (snd na)
                            (set_union (a_pre (snd na)) (lifted_vocabulary (s_dom L) (a_sig (snd na)) None))))
         (d_actions (s_dom L)))).

(** sam_learning.py:82-99 [_handle_consts_in_effects]; comparison is on the untyped representation. *)
Definition handle_consts_in_effects (L : learner) (c : call) (next : list literal) : res learner :=
  let* a := dict_lookup (d_actions (s_dom L)) (c_name c) in
  let vocabulary := lifted_vocabulary (s_dom L) (a_sig a) None in
  let* lifted_next := possible_literal_matches (s_dom L) c next None in
  let* cbe := dict_lookup (s_cbe L) (c_name c) in
  let cbe' := set_union cbe (filter (fun p => negb (memb p lifted_next)) vocabulary) in
  let L1 := with_cbe L (dict_set (s_cbe L) (c_name c) cbe') in
  Ok (put_action L1 (c_name c) (with_eff a (fold_left (fun e p => set_discard p e) cbe' (a_eff a)))).

(** sam_learning.py:101-114 [_handle_action_effects]. *)
Definition handle_action_effects (L : learner) (c : call) (prev next : list literal)
  : res (list literal * list literal) :=
  let '(adds, dels) := extract_discrete_effects prev next in
  let* ladds := possible_literal_matches (s_dom L) c adds None in
  let* ldels := possible_literal_matches (s_dom L) c dels None in
  Ok (ladds, ldels).

(** sam_learning.py:116-133 [_update_action_preconditions]. *)
Definition update_action_preconditions (L : learner) (c : call) (prev : list literal) : res learner :=
  let* a := dict_lookup (d_actions (s_dom L)) (c_name c) in
  let* ms := possible_literal_matches (s_dom L) c prev None in
  let previous := to_set ms in
  Ok (put_action L (c_name c) (with_pre a (filter (fun p => memb p previous) (a_pre a)))).

(** sam_learning.py:135-147 [_add_new_action_preconditions]. *)
Definition add_new_action_preconditions (L : learner) (c : call) (prev : list literal) : res learner :=
  let* a := dict_lookup (d_actions (s_dom L)) (c_name c) in
  let* ms := possible_literal_matches (s_dom L) c prev None in
  Ok (put_action L (c_name c) (with_pre a (set_union (a_pre a) (to_set ms)))).

(** sam_learning.py:165-181 [add_new_action]. *)
Definition add_new_action (L : learner) (c : call) (prev next : list literal) : res learner :=
  let* L1 := add_new_action_preconditions L c prev in
  let* (adds, dels) := handle_action_effects L1 c prev next in
  let* a := dict_lookup (d_actions (s_dom L1)) (c_name c) in
  let L2 := put_action L1 (c_name c) (with_eff a (set_union (a_eff a) (set_union (to_set adds) dels))) in
  Ok (with_observed L2 (s_observed L2 ++ [a_name a])).

(** sam_learning.py:183-200 [update_action]. *)
Definition update_action (L : learner) (c : call) (prev next : list literal) : res learner :=
  let* L1 := update_action_preconditions L c prev in
  let* (adds, dels) := handle_action_effects L1 c prev next in
  let* a := dict_lookup (d_actions (s_dom L1)) (c_name c) in
  let L2 := put_action L1 (c_name c) (with_eff a (set_union (a_eff a) (set_union (to_set adds) dels))) in
  match d_consts (s_dom L2) with
  | [] => Ok L2
  | _ => handle_consts_in_effects L2 c next
  end.

(** sam_learning.py:211-213: lifted parameters bound to each object of the call. *)
Definition grounded_signature_map (c : call) (a : action) : list (string * list string) :=
  fold_left (fun m gl => dict_set m (fst gl)
                           ((match dict_get m (fst gl) with Some l => l | None => [] end) ++ [snd gl]))
            (combine (c_params c) (dict_keys (a_sig a))) [].

(** sam_learning.py:202-219 [_verify_parameter_duplication]. *)
Definition verify_parameter_duplication (L : learner) (c : call) : res (learner * bool) :=
  if contains_duplicates (c_params c) then
    let* a := dict_lookup (d_actions (s_dom L)) (c_name c) in
    let ineq := fold_left (fun i lifted => fold_left (fun i p => set_discard p i) (pairs2 lifted) i)
                          (dict_vals (grounded_signature_map c a)) (a_ineq a) in
    Ok (put_action L (c_name c) (with_ineq a ineq), true)
  else Ok (L, false).

(** sam_learning.py:221-231 [_complete_possibly_missing_actions]. *)
Definition complete_possibly_missing_actions (L : learner) : learner :=
  fold_left (fun L ns => if dict_mem (fst ns) (d_actions (s_dom L)) then L
                         else put_action L (fst ns) (mkAct (fst ns) (snd ns) [] [] []))
            (s_sigs L) L.

(** sam_learning.py:233-257 [handle_single_trajectory_component]. *)
Definition handle_component (L : learner) (cp : component) : res learner :=
  let* (L1, dup) := verify_parameter_duplication L (cp_call cp) in
  if (dup : bool) then Ok L1
  else
    let* (prev, next) := triplet_snapshot (s_dom L1) (cp_prev cp) (cp_next cp) (cp_call cp) in
    if memb (c_name (cp_call cp)) (s_observed L1)
    then update_action L1 (cp_call cp) prev next
    else add_new_action L1 (cp_call cp) prev next.

(** sam_learning.py:259-268 [deduce_initial_inequality_preconditions], for one action. *)
Definition initial_inequalities (a : action) : action :=
  with_ineq a
    (fold_left (fun i p =>
                  match dict_get (a_sig a) (fst p), dict_get (a_sig a) (snd p) with
                  | Some t1, Some t2 => if type_eqb t1 t2 then set_add p i else i
                  | _, _ => i
                  end)
               (pairs2 (dict_keys (a_sig a))) (a_ineq a)).
Definition deduce_initial_inequality_preconditions (L : learner) : learner :=
  if s_injective L
  then with_dom L (set_actions (s_dom L) (map (fun na => (fst na, initial_inequalities (snd na))) (d_actions (s_dom L))))
  else L.

(** sam_learning.py:270-286 [remove_negative_preconditions], for one action. *)
Definition drop_negative (policy : neg_policy) (a : action) : action :=
  let add_effects := filter l_pos (a_eff a) in
  with_pre a
    (filter (fun p => if l_pos p then true
                      else match policy with
                           | soft => negb (memb (copy_lit true p) add_effects)
                           | _ => false
                           end) (a_pre a)).
Definition remove_negative_preconditions (L : learner) : learner :=
  with_dom L (set_actions (s_dom L)
    (map (fun na => (fst na, drop_negative (s_policy L) (snd na))) (d_actions (s_dom L)))).

(** sam_learning.py:288-290 [handle_negative_preconditions_policy]. *)
Definition handle_negative_preconditions_policy (L : learner) : learner :=
  match s_policy L with no_remove => L | _ => remove_negative_preconditions L end.

(** sam_learning.py:149-163 [_construct_learning_report] (without the learning time entry). *)
Inductive verdict : Set := v_ok | v_not_safe | v_unobserved.
Definition learning_report (L : learner) : list (string * verdict) :=
  let unsafe := set_diff (to_set (s_observed L)) (s_safe L) in
  let names := dict_keys (d_actions (s_dom L)) in
  let unobserved := set_diff (to_set names) (s_observed L) in
  dict_of (map (fun n => (n, v_ok)) (s_safe L)
           ++ map (fun n => (n, v_not_safe)) (filter (fun n => memb n unsafe) names)
           ++ map (fun n => (n, v_unobserved)) unobserved).

(** sam_learning.py:316-323: the loop over the observations. *)
Definition learn_components (L : learner) (obs : list (list component)) : res learner :=
  fold_res (fun L o => fold_res (fun L cp => if cp_ok cp then handle_component L cp else Ok L) o L) obs L.

(** sam_learning.py:306-330 [learn_action_model]; [construct_safe_actions] (292-294) is a no-op here. *)
Definition learn_action_model (L : learner) (obs : list (list component)) : res (learner * list (string * verdict)) :=
  let L1 := complete_possibly_missing_actions (deduce_initial_inequality_preconditions L) in
  let* L2 := learn_components L1 obs in
  let L3 := handle_negative_preconditions_policy (handle_unobserved_actions L2) in
  Ok (L3, learning_report L3).
