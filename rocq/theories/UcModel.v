(** * Model of sam_learning/learners/universaly_conditional_sam.py

    The learner of conditional effects of CondModel.v extended with one dependency set per action and quantified type.
    As there, literal texts are modelled by the literals.  Objects of a trajectory and domain types are dicts in
    insertion order. *)
From Verif Require Export CondModel TextModel.

(** [d.get(k, {})] on a dict of dicts; [additional_parameters] is a defaultdict. *)
Definition sub_dict {V} (d : list (string * list (string * V))) (n : string) : list (string * V) :=
  match dict_get d n with Some q => q | None => [] end.
(** [d[n][t]] and [d[n][t] = v]. *)
Definition sub_get {V} (d : list (string * list (string * V))) (n t : string) : res V := dict_lookup (sub_dict d n) t.
Definition sub_set {V} (d : list (string * list (string * V))) (n t : string) (v : V) : list (string * list (string * V)) :=
  dict_set d n (dict_set (sub_dict d n) t v).

(** universaly_conditional_sam.py:36-59: the conditional learner, the types of the domain, [universals_map],
    [quantified_antecedents], [additional_parameters] and [observed_universal_effects].  The universal effects added to
    an action (line 100) are one per entry of [additional_parameters]. *)
Record ulearner := mkU
  { u_c : clearner;
    u_types : list (string * ptype);
    u_map : list (string * list string);
    u_q : list (string * list (string * depset literal));
    u_param : list (string * list (string * string));
    u_seen : list (string * list (string * list literal)) }.
Definition init_universal (dom : domain) (types : list (string * ptype)) (max_size : nat) (policy : neg_policy) (inj : bool)
    (umap : list (string * list string)) : ulearner :=
  mkU (init_conditional dom max_size policy inj) types umap
      (map (fun na => (fst na, [])) (d_actions dom)) []
      (map (fun na => (fst na, map (fun tt => (fst tt, [])) (filter (fun tt => negb (String.eqb (fst tt) "object")) types)))
           (d_actions dom)).

Definition with_c (U : ulearner) (C : clearner) : ulearner := mkU C (u_types U) (u_map U) (u_q U) (u_param U) (u_seen U).
Definition with_q (U : ulearner) (q : list (string * list (string * depset literal))) : ulearner :=
  mkU (u_c U) (u_types U) (u_map U) q (u_param U) (u_seen U).
Definition with_seen (U : ulearner) (s : list (string * list (string * list literal))) : ulearner :=
  mkU (u_c U) (u_types U) (u_map U) (u_q U) (u_param U) s.
Definition u_dom (U : ulearner) : domain := s_dom (c_sam (u_c U)).

(** universaly_conditional_sam.py:61-78 [_create_antecedents_and_results_dicts] and the dependency set of lines
    92-97: [{**signature, x: t}] is [dict_set]. *)
Definition quantified_dependencies (dom : domain) (max_size : nat) (sig : signature) (x : string) (t : ptype) : depset literal :=
  let extended := dict_set sig x t in
  initialize_dependencies (mkDep [] max_size) (lifted_vocabulary dom extended (Some x)) (Some (lifted_vocabulary dom extended None)).

(** universaly_conditional_sam.py:80-100 [_initialize_universal_dependencies]. *)
Definition initialize_universal_type (sig : signature) (c : call) (U : ulearner) (tt : string * ptype) : res ulearner :=
  if String.eqb (fst tt) "object" then Ok U
  else
    let* names := dict_lookup (u_map U) (c_name c) in
    if negb (memb (fst tt) names) then Ok U
    else
      let* x := create_additional_parameter_name (dict_keys sig) (t_name (snd tt)) in
      let D := quantified_dependencies (u_dom U) (c_max (u_c U)) sig x (snd tt) in
      Ok (mkU (u_c U) (u_types U) (u_map U) (sub_set (u_q U) (c_name c) (fst tt) D)
              (sub_set (u_param U) (c_name c) (fst tt) x) (u_seen U)).
Definition initialize_universal (U : ulearner) (c : call) : res ulearner :=
  let* a := dict_lookup (d_actions (u_dom U)) (c_name c) in
  fold_res (initialize_universal_type (a_sig a) c) (u_types U) U.

(** universaly_conditional_sam.py:112-122 and 191-203: the changed literals with an object that is neither a parameter
    of the call nor a constant. *)
Definition universal_changes (dom : domain) (c : call) (prev next : list literal) : list literal :=
  let '(adds, dels) := extract_discrete_effects prev next in
  filter (fun e => existsb (fun o => negb (memb o (dict_keys (d_consts dom) ++ c_params c))) (l_args e)) (set_union adds dels).
(** [[obj for obj in effect.grounded_objects if obj not in action_parameters][0]]. *)
Definition additional_object (c : call) (e : literal) : res string :=
  match filter (fun o => negb (memb o (c_params c))) (l_args e) with
  | [] => Err IndexError
  | o :: _ => Ok o
  end.
(** [match_predicate_to_action_literals(...)[0]]. *)
Definition first_match (dom : domain) (e : literal) (c : call) (o x : string) : res literal :=
  let* ms := match_predicate dom e c (Some (o, x)) in
  match ms with [] => Err IndexError | m :: _ => Ok m end.

(** universaly_conditional_sam.py:102-132 [_update_observed_effects]. *)
Definition observe_universal_change (objs : list pobject) (c : call) (U : ulearner) (e : literal) : res ulearner :=
  let dom := u_dom U in
  let* o := additional_object c e in
  let* t := match dict_get (d_consts dom) o with Some t => Ok t | None => dict_lookup objs o end in
  let* x := sub_get (u_param U) (c_name c) (t_name t) in
  let* l := first_match dom e c o x in
  let* seen := sub_get (u_seen U) (c_name c) (t_name t) in
  Ok (with_seen U (sub_set (u_seen U) (c_name c) (t_name t) (set_add l seen))).
Definition u_update_observed (U : ulearner) (objs : list pobject) (c : call) (prev next : list literal) : res ulearner :=
  let* C1 := update_observed_effects (u_c U) c prev next in
  fold_res (observe_universal_change objs c) (universal_changes (u_dom U) c prev next) (with_c U C1).

(** universaly_conditional_sam.py:134-149 [_reduce_state_predicates_based_on_types]. *)
Definition reduce_state (lits : list literal) (legal : list string) : list literal :=
  filter (fun p => subsetb (l_args p) legal) lits.

(** conditional_sam.py:85-157 with an extra object. *)
Definition find_literals_with (dom : domain) (c : call) (lits : list literal) (should_be_in_state : bool) (o x : string)
  : res (list literal) :=
  let* ms := possible_literal_matches dom c lits (Some (o, x)) in
  Ok (to_set (if should_be_in_state then ms else map (copy_lit true) ms)).

(** universaly_conditional_sam.py:151-182 [_remove_existing_previous_state_quantified_dependencies]; the test
    [literal in self.observed_universal_effects] compares a literal with action names and never succeeds. *)
Definition remove_existing_object (c : call) (prev next : list literal) (tn x : string) (U : ulearner) (o : pobject) : res ulearner :=
  let dom := u_dom U in
  let allowed := c_params c ++ [fst o] in
  let* not_results := find_literals_with dom c (reduce_state next allowed) false (fst o) x in
  let* antecedents := find_literals_with dom c (reduce_state prev allowed) true (fst o) x in
  let* D := sub_get (u_q U) (c_name c) tn in
  Ok (with_q U (sub_set (u_q U) (c_name c) tn
        (fold_left (fun D l => if is_possible_result D l then remove_dependencies D l antecedents false else D) not_results D))).
Definition objects_of (by_type : list (string * list pobject)) (tn : string) : list pobject :=
  match dict_get by_type tn with Some os => os | None => [] end.
Definition remove_existing_quantified (U : ulearner) (objs : list pobject) (c : call) (prev next : list literal) : res ulearner :=
  let by_type := find_unique_objects_by_type objs (c_params c) in
  fold_res (fun U tx => fold_res (remove_existing_object c prev next (fst tx) (snd tx)) (objects_of by_type (fst tx)) U)
           (sub_dict (u_param U) (c_name c)) U.

(** universaly_conditional_sam.py:184-219 [_remove_non_existing_previous_state_quantified_dependencies]. *)
Definition remove_non_existing_change (objs : list pobject) (c : call) (prev : list literal) (U : ulearner) (e : literal) : res ulearner :=
  let dom := u_dom U in
  let* o := additional_object c e in
  let* t := dict_lookup objs o in
  let* x := sub_get (u_param U) (c_name c) (t_name t) in
  let* l := first_match dom e c o x in
  let* missing := find_literals_with dom c (reduce_state prev (c_params c ++ [o])) false o x in
  let* D := sub_get (u_q U) (c_name c) (t_name t) in
  Ok (with_q U (sub_set (u_q U) (c_name c) (t_name t) (remove_dependencies D l missing true))).
Definition remove_non_existing_quantified (U : ulearner) (objs : list pobject) (c : call) (prev next : list literal) : res ulearner :=
  fold_res (remove_non_existing_change objs c prev) (universal_changes (u_dom U) c prev next) U.

(** universaly_conditional_sam.py:221-230 [_remove_not_antecedents]. *)
Definition u_remove_not_antecedents (U : ulearner) (objs : list pobject) (c : call) (prev next : list literal) : res ulearner :=
  let* C1 := remove_existing (u_c U) c prev next in
  let* C2 := remove_non_existing C1 c prev next in
  let* U1 := remove_existing_quantified (with_c U C2) objs c prev next in
  remove_non_existing_quantified U1 objs c prev next.

(** universaly_conditional_sam.py:341-353 [_apply_inductive_rules]: the inherited method called on line 349 runs the two
    overridden methods as well. *)
Definition u_apply_rules (U : ulearner) (objs : list pobject) (c : call) (prev next : list literal) : res ulearner :=
  let* _ := dict_lookup (u_map U) (c_name c) in
  let* U1 := u_update_observed U objs c prev next in
  u_remove_not_antecedents U1 objs c prev next.

(** [self.universals_map[name]] when present, else nothing (lines 365, 383, 400-402, 429). *)
Definition quantified_names (U : ulearner) (n : string) : list string :=
  match dict_get (u_map U) n with Some l => l | None => [] end.

(** universaly_conditional_sam.py:355-371 [add_new_action]; without quantified types the inherited method adds the
    preconditions a second time. *)
Definition u_add_new_action (U : ulearner) (objs : list pobject) (c : call) (prev next : list literal) : res ulearner :=
  let* a := dict_lookup (d_actions (u_dom U)) (c_name c) in
  let* L1 := add_new_action_preconditions (c_sam (u_c U)) c prev in
  let* L2 := match quantified_names U (c_name c) with
             | [] => add_new_action_preconditions L1 c prev
             | _ => Ok L1
             end in
  let* U2 := u_apply_rules (with_c U (with_sam (u_c U) L2)) objs c prev next in
  let L := c_sam (u_c U2) in
  Ok (with_c U2 (with_sam (u_c U2) (with_observed L (s_observed L ++ [a_name a])))).

(** universaly_conditional_sam.py:373-388 [update_action]. *)
Definition u_update_action (U : ulearner) (objs : list pobject) (c : call) (prev next : list literal) : res ulearner :=
  let* L1 := update_action_preconditions (c_sam (u_c U)) c prev in
  let* L2 := match quantified_names U (c_name c) with
             | [] => update_action_preconditions L1 c prev
             | _ => Ok L1
             end in
  u_apply_rules (with_c U (with_sam (u_c U) L2)) objs c prev next.

(** universaly_conditional_sam.py:390-418 [handle_single_trajectory_component] of a trajectory with objects [objs]. *)
Definition u_handle_component (U : ulearner) (e : list pobject * component) : res ulearner :=
  let '(objs, cp) := e in
  let c := cp_call cp in
  let '(prev, next) := triplet_snapshot_universal (u_dom U) (cp_prev cp) (cp_next cp) c objs (quantified_names U (c_name c)) in
  if memb (c_name c) (s_observed (c_sam (u_c U))) then u_update_action U objs c prev next
  else
    let* C1 := initialize_actions_dependencies (u_c U) c in
    let* U1 := initialize_universal (with_c U C1) c in
    u_add_new_action U1 objs c prev next.

(** ** Construction *)

(** A learned action: the conditional part, the quantified preconditions (parameter, type, conjuncts) and the quantified
    conditional effects (parameter, type, effects). *)
Record uact := mkUact
  { ua_k : cact;
    ua_pre : list (string * string * list (form literal));
    ua_eff : list (string * string * list (list literal * list literal)) }.

(** universaly_conditional_sam.py:292, 312: the literals seen when iterating over the preconditions, quantified ones included. *)
Definition u_precondition_literals (lb : lib) (k : cact) (pre : list (string * string * list (form literal))) : list literal :=
  to_set (if lib_nested lb then flat_map form_literals (k_root k) ++ flat_map (fun q => flat_map form_literals (snd q)) pre
          else same_level (k_root k)).

(** universaly_conditional_sam.py:295-322 [_construct_restrictive_preconditions] for a quantified literal. *)
Definition u_restrictive_precondition (lb : lib) (k : cact) (pre : list (string * string * list (form literal)))
    (D : depset literal) (seen : list literal) (tn x : string) (l : literal) : res (string * string * list (form literal)) :=
  let* f := construct_restrictive_preconditions (lib_flatten lb) D (u_precondition_literals lb k pre) l (memb l seen) in
  Ok (x, tn, match f with None => [] | Some f => add_condition (lib_flatten lb) op_and [] f end).

(** universaly_conditional_sam.py:324-335: one possible result of one quantified type. *)
Definition verify_universal_single (lb : lib) (k : cact) (D : depset literal) (seen : list literal) (tn x : string)
    (acc : list (string * string * list (form literal)) * list (list literal * list literal)) (l : literal)
  : res (list (string * string * list (form literal)) * list (list literal * list literal)) :=
  let '(pre, effs) := acc in
  let* safe := is_safe_literal D l in
  if negb safe then
    let* q := u_restrictive_precondition lb k pre D seen tn x l in
    if memb l seen then
      let* e := restrictive_effect D l in
      Ok (pre ++ [q], effs ++ [e])
    else Ok (pre ++ [q], effs)
  else if memb l seen then
    let* e := conditional_effect_data D l in
    Ok (pre, effs ++ [e])
  else Ok (pre, effs).

(** universaly_conditional_sam.py:324-339 [_verify_and_construct_safe_universal_effects] for one quantified type. *)
Definition verify_universal_type (lb : lib) (k : cact) (params : list (string * string)) (seen : list (string * list literal))
    (acc : list (string * string * list (form literal)) * list (string * string * list (list literal * list literal)))
    (q : string * depset literal)
  : res (list (string * string * list (form literal)) * list (string * string * list (list literal * list literal))) :=
  let '(pre, effs) := acc in
  let* x := dict_lookup params (fst q) in
  let* s := dict_lookup seen (fst q) in
  let* (pre1, es) := fold_res (verify_universal_single lb k (snd q) s (fst q) x) (dict_keys (possible (snd q))) (pre, []) in
  Ok (pre1, effs ++ [(x, fst q, compress_conditional_effects es)]).

(** universaly_conditional_sam.py:420-434 [construct_safe_actions] for one action; lines 284-293 prune the quantified
    dependency sets by the preconditions the conditional part ended up with. *)
Definition u_construct (lb : lib) (U : ulearner) (n : string) : res (string * uact) :=
  let* (_, k) := construct_safe_action lb (u_c U) n in
  match quantified_names U n with
  | [] => Ok (n, mkUact k [] (map (fun tx => (snd tx, fst tx, [])) (sub_dict (u_param U) n)))
  | _ =>
      let q := map (fun td => (fst td, remove_preconditions_literals (snd td) (u_precondition_literals lb k []))) (sub_dict (u_q U) n) in
      let* (pre, effs) := fold_res (verify_universal_type lb k (sub_dict (u_param U) n) (sub_dict (u_seen U) n)) q ([], []) in
      Ok (n, mkUact k pre effs)
  end.

(** universaly_conditional_sam.py:436-454 [learn_action_model] on the components of all trajectories, each with the
    objects of its trajectory. *)
Definition u_observe (dom : domain) (types : list (string * ptype)) (max_size : nat) (policy : neg_policy) (inj : bool)
    (umap : list (string * list string)) (history : list (list pobject * component)) : res ulearner :=
  let U0 := init_universal dom types max_size policy inj umap in
  fold_res u_handle_component history
    (with_c U0 (with_sam (u_c U0) (deduce_initial_inequality_preconditions (c_sam (u_c U0))))).
Definition u_learn (lb : lib) (dom : domain) (types : list (string * ptype)) (max_size : nat) (policy : neg_policy) (inj : bool)
    (umap : list (string * list string)) (history : list (list pobject * component)) : res (list (string * uact)) :=
  let* U := u_observe dom types max_size policy inj umap history in
  map_res (u_construct lb U) (s_observed (c_sam (u_c U))).
