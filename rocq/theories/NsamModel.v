(** * Numeric SAM learning

    Model of sam_learning/learners/numeric_sam.py, of core/numeric_learning/numeric_function_matcher.py,
    core/numeric_learning/numeric_fluent_learner_algorithm.py (with the non-incremental hull learner) and of
    environment_snapshot.py 65-79.  Learning times and log messages are left out. *)
From Verif Require Export RegModel SamModel.
Open Scope string_scope. Open Scope list_scope. Open Scope nat_scope.

(** A numeric function applied to the keys of its signature: parameters, constants or objects. *)
Definition term := (string * list string)%type.
(** [PDDLFunction.untyped_representation] *)
Definition term_text (t : term) : text := LP :: Sym (fst t) :: map Sym (snd t) ++ [RP].
(** [State.state_fluents]: keyed by the untyped representation of the ground function. *)
Definition fluents := list (term * Q).
(** [ObservedComponent] with the numeric part of its states. *)
Record ncomponent := mk_ncomponent { nc_comp : component; nc_prev : fluents; nc_next : fluents }.

(** ** environment_snapshot.py *)
(** 65-79 [create_numeric_state_snapshot] *)
Definition numeric_state_snapshot (st : fluents) (relevant_objects : list pobject) : fluents :=
  filter (fun f => match snd (fst f) with [] => true | args => subsetb args (map fst relevant_objects) end) st.

(** ** numeric_function_matcher.py *)
(** 21-39 [create_possible_function_signatures] *)
Definition create_possible_function_signatures (action_parameters : list string) (name : string) (sig : signature) : list term :=
  map (fun p => (name, p)) (perms (length sig) action_parameters).
(** 41-76 [lift_matched_parameters]: the lifted functions; a signature is a dict, so repeated names collapse. *)
Definition lift_matched_parameters (dom : domain) (a : action) (call_parameters : list string) (t : term) : list term :=
  let mapping := combine call_parameters (dict_keys (a_sig a)) ++ map (fun c => (c, c)) (dict_keys (d_consts dom)) in
  map (fun p => (fst t, sig_keys (map snd p)))
      (filter (fun p => Prelude.eqb (map fst p) (snd t)) (prods (repeat mapping (length (snd t))))).
(** 78-118 [match_state_functions] *)
Definition match_function (dom : domain) (c : call) (state_fluents : fluents) (matches : fluents) (f : string * signature) : res fluents :=
  let (name, sig) := f in
  if (length (c_params c) <? length sig) && (length (d_consts dom) =? 0) then Ok matches
  else match sig with
       | [] => let* v := dict_lookup state_fluents (name, []) in Ok (dict_set matches (name, []) v)
       | _ =>
           fold_res (fun matches t =>
               match dict_get state_fluents t with
               | None => Ok matches
               | Some v => let* a := dict_lookup (d_actions dom) (c_name c) in
                           Ok (fold_left (fun matches l => dict_set matches l v) (lift_matched_parameters dom a (c_params c) t) matches)
               end)
             (create_possible_function_signatures (c_params c ++ dict_keys (d_consts dom)) name sig) matches
       end.
Definition match_state_functions (dom : domain) (c : call) (state_fluents : fluents) : res fluents :=
  fold_res (match_function dom c state_fluents) (d_funcs dom) [].

(** ** numeric_fluent_learner_algorithm.py *)
(** 27-52 *)
Record storage := mk_storage { st_monomials : list (list text); st_hull : frame; st_effects : RegModel.learner }.
Definition by_text (fs : fluents) : list (text * Q) := map (fun f => (term_text (fst f), snd f)) fs.

Section Learner.
(** The order of strings; ten to the power of the digits; the numeric oracles (HullModel.v, RegModel.v). *)
Variable le : text -> text -> bool.
Variable unit fine : positive.
Variable fit : list (list Q) -> list Q -> list Q * Q * bool.
Variable hull : list (list Q) -> option (list (list Q) * list Q).
Variable gram : list (list Q) -> list (list Q).
Variable complement : nat -> list (list Q) -> list (list Q).
Variable rank : list (list Q) -> nat.

Definition init_storage (functions : list term) (degree : nat) : storage :=
  let names := map term_text functions in
  let monomials := create_monomials le names degree in
  let cols := map create_polynomial_string monomials in
  mk_storage monomials (mk_frame cols []) (mk_learner names (mk_frame cols []) (mk_frame names [])).
(** 54-62 *)
Definition add_to_previous_state_storage (s : storage) (state_fluents : fluents) : storage :=
  let sample := create_grounded_monomials (st_monomials s) (by_text state_fluents) in
  mk_storage (st_monomials s) (add_new_point (st_hull s) sample) (add_new_observation (st_effects s) sample true).
(** 64-70 *)
Definition add_to_next_state_storage (s : storage) (state_fluents : fluents) : storage :=
  mk_storage (st_monomials s) (st_hull s) (add_new_observation (st_effects s) (by_text state_fluents) false).

(** ** numeric_sam.py *)
(** 24-42.  The numeric operands of the precondition and the numeric effects of an action are kept next to the discrete action. *)
Record nlearner := mk_nlearner
  { n_sam : SamModel.learner;
    n_storage : list (string * storage);
    n_numeric : list (string * (list text * list text));
    n_relevant : option (list (string * list text));
    n_unsafe : bool;
    n_degree : nat }.
Definition init_nlearner (dom : domain) (relevant : option (list (string * list text))) (unsafe : bool) (degree : nat) (policy : neg_policy) : nlearner :=
  mk_nlearner (init_learner dom policy true) [] [] relevant unsafe degree.
Definition with_sam (N : nlearner) (L : SamModel.learner) : nlearner :=
  mk_nlearner L (n_storage N) (n_numeric N) (n_relevant N) (n_unsafe N) (n_degree N).
Definition with_storage (N : nlearner) (st : list (string * storage)) : nlearner :=
  mk_nlearner (n_sam N) st (n_numeric N) (n_relevant N) (n_unsafe N) (n_degree N).
Definition with_numeric (N : nlearner) (m : list (string * (list text * list text))) : nlearner :=
  mk_nlearner (n_sam N) (n_storage N) m (n_relevant N) (n_unsafe N) (n_degree N).

(** 105-135 [add_new_action], 137-155 [update_action]: the storage part *)
Definition store (dom : domain) (c : call) (s : storage) (prev next : fluents) : res storage :=
  let* previous_matches := match_state_functions dom c prev in
  let* next_matches := match_state_functions dom c next in
  Ok (add_to_next_state_storage (add_to_previous_state_storage s previous_matches) next_matches).
(** sam_learning.py 233-257 with the two methods above *)
Definition handle_ncomponent (N : nlearner) (cp : ncomponent) : res nlearner :=
  let c := cp_call (nc_comp cp) in
  let* (L1, dup) := verify_parameter_duplication (n_sam N) c in
  if (dup : bool) then Ok (with_sam N L1)
  else
    let* a := dict_lookup (d_actions (s_dom L1)) (c_name c) in
    let* (prev, next) := triplet_snapshot (s_dom L1) (cp_prev (nc_comp cp)) (cp_next (nc_comp cp)) c in
    let objs := parameterized_objects (s_dom L1) a c in
    let prev_functions := numeric_state_snapshot (nc_prev cp) objs in
    let next_functions := numeric_state_snapshot (nc_next cp) objs in
    if memb (c_name c) (s_observed L1) then
      let* L2 := update_action L1 c prev next in
      let* s := dict_lookup (n_storage N) (c_name c) in
      let* s' := store (s_dom L2) c s prev_functions next_functions in
      Ok (with_storage (with_sam N L2) (dict_set (n_storage N) (c_name c) s'))
    else
      let* L2 := add_new_action L1 c prev next in
      let s := init_storage (lifted_functions_vocabulary (s_dom L2) (a_sig a) None) (n_degree N) in
      let* s' := store (s_dom L2) c s prev_functions next_functions in
      Ok (with_storage (with_sam N L2) (dict_set (n_storage N) (c_name c) s')).

(** The entry of relevant_fluents for an action; a missing key raises. *)
Definition relevant_of (N : nlearner) (name : string) : res (option (list text)) :=
  match n_relevant N with None => Ok None | Some m => let* fs := dict_lookup m name in Ok (Some fs) end.
(** 56-83 [_construct_safe_numeric_preconditions]; without conditions and without relevant fluents, line 77 reads an attribute of None. *)
Definition construct_safe_numeric_preconditions (N : nlearner) (name : string) : res (list text) :=
  let* relevant := relevant_of N name in
  match relevant with
  | Some [] => Ok []
  | _ =>
      let* s := dict_lookup (n_storage N) name in
      let* learned := construct_safe_linear_inequalities unit fit hull gram complement (st_hull s) relevant in
      match learned, relevant with
      | Some conditions, _ => Ok conditions
      | None, Some _ => Ok []
      | None, None => Err AttributeError
      end
  end.
(** 85-103 [_construct_safe_numeric_effects]: the effects and the storage afterwards; the extra conditions are not used. *)
Definition construct_safe_numeric_effects (N : nlearner) (name : string) : res (list text * list (string * storage)) :=
  let* relevant := relevant_of N name in
  match relevant with
  | Some [] => Ok ([], n_storage N)
  | _ =>
      let* s := dict_lookup (n_storage N) name in
      let* (l, effects, _, _) := construct_assignment_equations unit fine fit rank (st_effects s) (n_unsafe N) relevant in
      Ok (effects, dict_set (n_storage N) name (mk_storage (st_monomials s) (st_hull s) l))
  end.
(** 157-167 [_create_safe_action].  44-54 [_remove_deprecated_numeric_preconditions] makes a new condition with the old operands that
    are not numeric; the inequality preconditions of the old one are not copied. *)
Definition create_safe_action (N : nlearner) (name : string) (a : action) : res (action * (list text * list text) * list (string * storage)) :=
  let* conditions := construct_safe_numeric_preconditions N name in
  let* (effects, st) := construct_safe_numeric_effects N name in
  Ok (with_ineq a [], (conditions, effects), st).

Inductive nverdict : Set := nv_sam (v : verdict) | nv_ok | nv_not_safe.
(** 169-195 [_create_safe_action_model]: the actions that are allowed and the report, in the order of the domain *)
Fixpoint create_safe_actions (N : nlearner) (actions : list (string * action))
  : res (list (string * action) * list (string * (list text * list text)) * list (string * storage) * list (string * nverdict)) :=
  match actions with
  | [] => Ok ([], [], n_storage N, [])
  | (name, a) :: actions =>
      if negb (dict_mem name (n_storage N)) then create_safe_actions N actions
      else match create_safe_action N name a with
           | Ok (a', numeric, st) =>
               let* (allowed, nums, st', report) := create_safe_actions (with_storage N st) actions in
               Ok ((name, a') :: allowed, (name, numeric) :: nums, st', (name, nv_ok) :: report)
           | Err NotSafeError =>
               let* (allowed, nums, st', report) := create_safe_actions N actions in
               Ok (allowed, nums, st', (name, nv_not_safe) :: report)
           | Err e => Err e
           end
  end.
Definition create_safe_action_model (N : nlearner) : res (nlearner * list (string * nverdict)) :=
  let* (allowed, nums, st, report) := create_safe_actions N (d_actions (s_dom (n_sam N))) in
  Ok (mk_nlearner (with_dom (n_sam N) (set_actions (s_dom (n_sam N)) allowed)) st nums (n_relevant N) (n_unsafe N) (n_degree N), report).

(** 197-224 [learn_action_model] *)
Definition learn_ncomponents (N : nlearner) (obs : list (list ncomponent)) : res nlearner :=
  fold_res (fun N o => fold_res (fun N cp => if cp_ok (nc_comp cp) then handle_ncomponent N cp else Ok N) o N) obs N.
Definition learn_numeric_model (N : nlearner) (obs : list (list ncomponent)) : res (nlearner * list (string * nverdict)) :=
  match d_funcs (s_dom (n_sam N)) with
  | [] => let* (L, report) := learn_action_model (n_sam N) (map (map nc_comp) obs) in
          Ok (with_sam N L, map (fun nv => (fst nv, nv_sam (snd nv))) report)
  | _ =>
      let L1 := complete_possibly_missing_actions (deduce_initial_inequality_preconditions (n_sam N)) in
      let* N2 := learn_ncomponents (with_sam N L1) obs in
      create_safe_action_model (with_sam N2 (handle_negative_preconditions_policy (n_sam N2)))
  end.
End Learner.
