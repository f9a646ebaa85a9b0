(** * Model of sam_learning/learners/conditional_sam.py

    The dependency set and the observed effects hold literal texts in the code
    ([untyped_representation]) and [extract_predicate_data] turns a text back into a literal.  Here they
    hold the literals themselves; TextModel/TextProofs prove that the text determines the literal and that
    [extract_predicate_data] inverts the rendering. *)
From Verif Require Export SamModel DepModel.

(** Literal records with the three operations of [Lits]. *)
#[export] Instance literal_lits : Lits literal :=
  { starts_not := fun l => negb (l_pos l);
    flip := copy_lit true;
    literal_search := fun l => Some (mkLit (l_name l) (l_args l) true) }.

(** conditional_sam.py:31-54: the SAM learner plus [conditional_antecedents] and [observed_effects]. *)
Record clearner := mkC
  { c_sam : learner;
    c_deps : list (string * depset literal);
    c_obs : list (string * list literal);
    c_max : nat }.
Definition init_conditional (dom : domain) (max_size : nat) (policy : neg_policy) (inj : bool) : clearner :=
  mkC (init_learner dom policy inj) [] (map (fun na => (fst na, [])) (d_actions dom)) max_size.

Definition with_sam (C : clearner) (L : learner) : clearner := mkC L (c_deps C) (c_obs C) (c_max C).
Definition with_deps (C : clearner) (d : list (string * depset literal)) : clearner := mkC (c_sam C) d (c_obs C) (c_max C).
Definition with_obs (C : clearner) (o : list (string * list literal)) : clearner := mkC (c_sam C) (c_deps C) o (c_max C).

(** conditional_sam.py:56-70 [_initialize_actions_dependencies]. *)
Definition initialize_actions_dependencies (C : clearner) (c : call) : res clearner :=
  let* a := dict_lookup (d_actions (s_dom (c_sam C))) (c_name c) in
  let vocabulary := lifted_vocabulary (s_dom (c_sam C)) (a_sig a) None in
  Ok (with_deps C (dict_set (c_deps C) (c_name c)
                     (initialize_dependencies (mkDep [] (c_max C)) vocabulary None))).

(** conditional_sam.py:72-83 [_extract_lifted_conditional_effects]. *)
Definition lifted_conditional_effects (dom : domain) (c : call) (prev next : list literal) : res (list literal) :=
  let '(adds, dels) := extract_discrete_effects prev next in
  let* ms := possible_literal_matches dom c (set_union adds dels) None in
  Ok (to_set ms).

(** conditional_sam.py:85-157 [_find_literals] and its two wrappers. *)
Definition find_literals (dom : domain) (c : call) (lits : list literal) (should_be_in_state : bool) : res (list literal) :=
  let* ms := possible_literal_matches dom c lits None in
  Ok (to_set (if should_be_in_state then ms else map (copy_lit true) ms)).

(** conditional_sam.py:159-173 [_remove_existing_previous_state_dependencies]. *)
Definition remove_existing (C : clearner) (c : call) (prev next : list literal) : res clearner :=
  let dom := s_dom (c_sam C) in
  let* missing_next := find_literals dom c next false in
  let* previous := find_literals dom c prev true in
  let* D := dict_lookup (c_deps C) (c_name c) in
  Ok (with_deps C (dict_set (c_deps C) (c_name c)
        (fold_left (fun D l => remove_dependencies D l previous false) missing_next D))).

(** conditional_sam.py:175-188 [_remove_non_existing_previous_state_dependencies]. *)
Definition remove_non_existing (C : clearner) (c : call) (prev next : list literal) : res clearner :=
  let dom := s_dom (c_sam C) in
  let* effects := lifted_conditional_effects dom c prev next in
  let* missing_pre := find_literals dom c prev false in
  let* D := dict_lookup (c_deps C) (c_name c) in
  Ok (with_deps C (dict_set (c_deps C) (c_name c)
        (fold_left (fun D l => remove_dependencies D l missing_pre true) effects D))).

(** conditional_sam.py:190-198 [_update_observed_effects]. *)
Definition update_observed_effects (C : clearner) (c : call) (prev next : list literal) : res clearner :=
  let* effects := lifted_conditional_effects (s_dom (c_sam C)) c prev next in
  let* obs := dict_lookup (c_obs C) (c_name c) in
  Ok (with_obs C (dict_set (c_obs C) (c_name c) (set_union obs effects))).

(** conditional_sam.py:200-218 [_remove_not_antecedents], [_apply_inductive_rules]. *)
Definition apply_inductive_rules (C : clearner) (c : call) (prev next : list literal) : res clearner :=
  let* C1 := update_observed_effects C c prev next in
  let* C2 := remove_existing C1 c prev next in
  remove_non_existing C2 c prev next.

(** conditional_sam.py:445-457 [add_new_action]. *)
Definition cond_add_new_action (C : clearner) (c : call) (prev next : list literal) : res clearner :=
  let* L1 := add_new_action_preconditions (c_sam C) c prev in
  let* C2 := apply_inductive_rules (with_sam C L1) c prev next in
  let* a := dict_lookup (d_actions (s_dom (c_sam C2))) (c_name c) in
  Ok (with_sam C2 (with_observed (c_sam C2) (s_observed (c_sam C2) ++ [a_name a]))).

(** conditional_sam.py:459-469 [update_action]. *)
Definition cond_update_action (C : clearner) (c : call) (prev next : list literal) : res clearner :=
  let* L1 := update_action_preconditions (c_sam C) c prev in
  apply_inductive_rules (with_sam C L1) c prev next.

(** conditional_sam.py:484-491: the rest of [handle_single_trajectory_component] once the snapshot is taken. *)
Definition cond_process (C : clearner) (c : call) (prev next : list literal) : res clearner :=
  if memb (c_name c) (s_observed (c_sam C)) then cond_update_action C c prev next
  else
    let* C1 := initialize_actions_dependencies C c in
    cond_add_new_action C1 c prev next.
(** conditional_sam.py:471-491 [handle_single_trajectory_component]. *)
Definition cond_handle_component (C : clearner) (cp : component) : res clearner :=
  let c := cp_call cp in
  let* (prev, next) := triplet_snapshot (s_dom (c_sam C)) (cp_prev cp) (cp_next cp) c in
  cond_process C c prev next.

(** ** Construction of the learned actions *)

(** A learned action: the operands of the conjunctive precondition, the inequalities, the simple effects
    and the conditional effects (antecedents, results). *)
Record cact := mkCact
  { k_name : string; k_sig : signature; k_root : list (form literal); k_ineq : list (string * string);
    k_eff : list literal; k_cond : list (list literal * list literal) }.

Definition cact_of (a : action) : cact :=
  mkCact (a_name a) (a_sig a) (map f_lit (a_pre a)) (a_ineq a) (a_eff a) [].

(** All the literals of a condition. *)
Fixpoint form_literals (f : form literal) : list literal :=
  match f with
  | f_lit l => [l]
  | f_and fs => (fix go (fs : list (form literal)) : list literal :=
                   match fs with [] => [] | g :: gs => form_literals g ++ go gs end) fs
  | f_or fs => (fix go (fs : list (form literal)) : list literal :=
                  match fs with [] => [] | g :: gs => form_literals g ++ go gs end) fs
  end.

(** Two external behaviours of pddl_plus_parser that the code depends on: whether [add_condition] dissolves
    nested conditions of the same operator, and whether iterating over the preconditions of an action
    also visits the literals inside nested conditions. *)
Record lib := mkLib { lib_flatten : bool; lib_nested : bool }.

(** conditional_sam.py:230: [{p.untyped_representation for _, p in action.preconditions if isinstance(p, Predicate)}]. *)
Definition precondition_literals (lb : lib) (k : cact) : list literal :=
  to_set (if lib_nested lb then flat_map form_literals (k_root k) else same_level (k_root k)).

(** conditional_sam.py:220-235 [_construct_restrictive_preconditions]. *)
Definition cond_restrictive_preconditions (lb : lib) (k : cact) (D : depset literal) (obs : list literal) (l : literal)
  : res cact :=
  let* f := construct_restrictive_preconditions (lib_flatten lb) D (precondition_literals lb k) l (memb l obs) in
  Ok (match f with
      | None => k
      | Some f => mkCact (k_name k) (k_sig k) (add_condition (lib_flatten lb) op_and (k_root k) f)
                         (k_ineq k) (k_eff k) (k_cond k)
      end).

(** conditional_sam.py:237-322 [_construct_antecedents], [_construct_result],
    [_construct_conditional_effect_data] (the antecedents are always a set, so lines 256-270 are dead). *)
Definition conditional_effect_data (D : depset literal) (l : literal) : res (list literal * list literal) :=
  let* antecedents := extract_safe_antecedents D l in
  Ok (antecedents, [l]).

(** conditional_sam.py:324-349 [_construct_restrictive_effect]. *)
Definition restrictive_effect (D : depset literal) (l : literal) : res (list literal * list literal) :=
  let* cands := dict_lookup (possible D) l in
  let combined := fold_left (fun p d => set_union p d) cands [] in
  conditional_effect_data (mkDep [(l, [combined])] (max_antecedents D)) l.

(** conditional_sam.py:351-363 [_construct_simple_effect]. *)
Definition construct_simple_effect (cbe : list literal) (k : cact) (l : literal) : cact :=
  if memb l cbe then k
  else mkCact (k_name k) (k_sig k) (k_root k) (k_ineq k) (set_add l (k_eff k)) (k_cond k).

(** conditional_sam.py:409-443 [verify_single_possible_conditional_effect]. *)
Definition verify_single (lb : lib) (cbe : list literal) (D : depset literal) (obs : list literal) (k : cact) (l : literal)
  : res (cact * option (list literal * list literal)) :=
  let* safe := is_safe_literal D l in
  if negb safe then
    let* k1 := cond_restrictive_preconditions lb k D obs l in
    if negb (memb l obs) then Ok (k1, None)
    else
      let* e := restrictive_effect D l in
      Ok (mkCact (k_name k1) (k_sig k1) (k_root k1) (k_ineq k1) (k_eff k1) (k_cond k1 ++ [e]), None)
  else if negb (memb l obs) then Ok (k, None)
  else
    let* cond := is_safe_conditional_effect D l in
    if negb cond then Ok (construct_simple_effect cbe k l, None)
    else
      let* e := conditional_effect_data D l in
      Ok (k, Some e).

(** conditional_sam.py:365-388 [_compress_conditional_effects]: effects with equal antecedents are merged into
    the first one.  [fuel] bounds the number of rounds; each removes at least one effect. *)
Fixpoint compress_loop (fuel : nat) (effs : list (list literal * list literal)) : list (list literal * list literal) :=
  match fuel, effs with
  | S fuel', e :: rest =>
      let same := filter (fun o => set_eqb (fst e) (fst o)) rest in
      (fst e, fold_left (fun r o => set_union r (snd o)) same (snd e))
        :: compress_loop fuel' (filter (fun o => negb (set_eqb (fst e) (fst o))) rest)
  | _, _ => []
  end.
Definition compress_conditional_effects (effs : list (list literal * list literal)) : list (list literal * list literal) :=
  compress_loop (length effs) effs.

(** conditional_sam.py:390-407 [_verify_and_construct_safe_conditional_effects]. *)
Definition verify_and_construct (lb : lib) (cbe : list literal) (D : depset literal) (obs : list literal) (k : cact) : res cact :=
  let* (k1, effs) := fold_res (fun acc l =>
                        let '(k, effs) := acc in
                        let* (k', e) := verify_single lb cbe D obs k l in
                        Ok (k', match e with Some e => effs ++ [e] | None => effs end))
                     (dict_keys (possible D)) (k, []) in
  Ok (match effs with
      | [] => k1
      | _ => mkCact (k_name k1) (k_sig k1) (k_root k1) (k_ineq k1) (k_eff k1) (compress_conditional_effects effs)
      end).

(** conditional_sam.py:493-502 [construct_safe_actions]. *)
Definition construct_safe_action (lb : lib) (C : clearner) (n : string) : res (string * cact) :=
  let* a := dict_lookup (d_actions (s_dom (c_sam C))) n in
  let* D := dict_lookup (c_deps C) (a_name a) in
  let* obs := dict_lookup (c_obs C) (a_name a) in
  let* cbe := dict_lookup (s_cbe (c_sam C)) (a_name a) in
  let k := cact_of a in
  let D1 := remove_preconditions_literals D (precondition_literals lb k) in
  let* k1 := verify_and_construct lb cbe D1 obs k in
  Ok (n, k1).

(** conditional_sam.py:504-522 [learn_action_model] on the components of all observations in order; there is no
    test of [is_successful]. *)
Definition cond_observe (dom : domain) (max_size : nat) (policy : neg_policy) (inj : bool) (cps : list component) : res clearner :=
  let C0 := init_conditional dom max_size policy inj in
  fold_res cond_handle_component cps (with_sam C0 (deduce_initial_inequality_preconditions (c_sam C0))).
Definition cond_learn (lb : lib) (dom : domain) (max_size : nat) (policy : neg_policy) (inj : bool) (cps : list component)
  : res (list (string * cact)) :=
  let* C := cond_observe dom max_size policy inj cps in
  map_res (construct_safe_action lb C) (s_observed (c_sam C)).
