(** * Incremental Numeric SAM learning

    Model of sam_learning/learners/incremental_numeric_sam.py: the learner of numeric_sam.py (NsamModel.v) whose storages
    (numeric_fluent_learner_algorithm.py with incremental=True) hold the incremental convex hull learner (IncModel.v).  qhull's errors while
    observations are added pass through.  Learning times and log messages are left out. *)
From Verif Require Export NsamModel IncModel.
Open Scope string_scope. Open Scope list_scope. Open Scope nat_scope.

(** ** numeric_fluent_learner_algorithm.py *)
(** 27-52, incremental *)
Record istorage := mk_istorage { ih_monomials : list (list text); ih_hull : inc; ih_effects : RegModel.learner }.

Section Incremental.
(** The order of strings; ten to the power of the digits; the numeric libraries (IncModel.v, RegModel.v). *)
Variable le : text -> text -> bool.
Variable unit fine : positive.
Variable fit : list (list Q) -> list Q -> list Q * Q * bool.
Variable hull : list (list Q) -> option (list (list Q) * list Q).
Variable schmidt : list (list Q) -> list (list Q) -> list (list Q).
Variable rank : list (list Q) -> nat.

Definition init_istorage (functions : list term) (degree : nat) : istorage :=
  let names := map term_text functions in
  let monomials := create_monomials le names degree in
  let cols := map create_polynomial_string monomials in
  mk_istorage monomials (new_learner cols None) (mk_learner names (mk_frame cols []) (mk_frame names [])).
(** 54-62 *)
Definition iadd_previous (s : istorage) (state_fluents : fluents) : res istorage :=
  let sample := create_grounded_monomials (ih_monomials s) (by_text state_fluents) in
  let* h := IncModel.add_new_point unit fit hull schmidt (ih_hull s) sample in
  Ok (mk_istorage (ih_monomials s) h (add_new_observation (ih_effects s) sample true)).
(** 64-70 *)
Definition iadd_next (s : istorage) (state_fluents : fluents) : istorage :=
  mk_istorage (ih_monomials s) (ih_hull s) (add_new_observation (ih_effects s) (by_text state_fluents) false).

(** ** numeric_sam.py *)
(** 24-42.  The numeric operands of the precondition and the numeric effects of an action are kept next to the discrete action. *)
Record ilearner := mk_ilearner
  { is_sam : SamModel.learner;
    is_storage : list (string * istorage);
    is_numeric : list (string * (list text * list text));
    is_relevant : option (list (string * list text));
    is_unsafe : bool;
    is_degree : nat }.
Definition init_ilearner (dom : domain) (relevant : option (list (string * list text))) (unsafe : bool) (degree : nat) (policy : neg_policy) : ilearner :=
  mk_ilearner (init_learner dom policy true) [] [] relevant unsafe degree.
Definition iwith_sam (N : ilearner) (L : SamModel.learner) : ilearner :=
  mk_ilearner L (is_storage N) (is_numeric N) (is_relevant N) (is_unsafe N) (is_degree N).
Definition iwith_storage (N : ilearner) (st : list (string * istorage)) : ilearner :=
  mk_ilearner (is_sam N) st (is_numeric N) (is_relevant N) (is_unsafe N) (is_degree N).

(** 105-135 [add_new_action], 137-155 [update_action]: the storage part *)
Definition istore (dom : domain) (c : call) (s : istorage) (prev next : fluents) : res istorage :=
  let* previous_matches := match_state_functions dom c prev in
  let* next_matches := match_state_functions dom c next in
  let* s' := iadd_previous s previous_matches in
  Ok (iadd_next s' next_matches).
(** sam_learning.py 233-257 with the two methods above *)
Definition handle_icomponent (N : ilearner) (cp : ncomponent) : res ilearner :=
  let c := cp_call (nc_comp cp) in
  let* (L1, dup) := verify_parameter_duplication (is_sam N) c in
  if (dup : bool) then Ok (iwith_sam N L1)
  else
    let* a := dict_lookup (d_actions (s_dom L1)) (c_name c) in
    let* (prev, next) := triplet_snapshot (s_dom L1) (cp_prev (nc_comp cp)) (cp_next (nc_comp cp)) c in
    let objs := parameterized_objects (s_dom L1) a c in
    let prev_functions := numeric_state_snapshot (nc_prev cp) objs in
    let next_functions := numeric_state_snapshot (nc_next cp) objs in
    if memb (c_name c) (s_observed L1) then
      let* L2 := update_action L1 c prev next in
      let* s := dict_lookup (is_storage N) (c_name c) in
      let* s' := istore (s_dom L2) c s prev_functions next_functions in
      Ok (iwith_storage (iwith_sam N L2) (dict_set (is_storage N) (c_name c) s'))
    else
      let* L2 := add_new_action L1 c prev next in
      let s := init_istorage (lifted_functions_vocabulary (s_dom L2) (a_sig a) None) (is_degree N) in
      let* s' := istore (s_dom L2) c s prev_functions next_functions in
      Ok (iwith_storage (iwith_sam N L2) (dict_set (is_storage N) (c_name c) s')).

(** The entry of relevant_fluents for an action; a missing key raises. *)
Definition irelevant_of (N : ilearner) (name : string) : res (option (list text)) :=
  match is_relevant N with None => Ok None | Some m => let* fs := dict_lookup m name in Ok (Some fs) end.
(** 56-83 [_construct_safe_numeric_preconditions]; the incremental hull learner ignores the list it is given; without conditions and without relevant fluents, line 77 reads an attribute of None. *)
Definition construct_incremental_preconditions (N : ilearner) (name : string) : res (list text) :=
  let* relevant := irelevant_of N name in
  match relevant with
  | Some [] => Ok []
  | _ =>
      let* s := dict_lookup (is_storage N) name in
      let* learned := construct_safe unit (ih_hull s) in
      match learned, relevant with
      | Some conditions, _ => Ok conditions
      | None, Some _ => Ok []
      | None, None => Err AttributeError
      end
  end.
(** 85-103 [_construct_safe_numeric_effects]: the effects and the storage afterwards; the extra conditions are not used. *)
Definition construct_incremental_effects (N : ilearner) (name : string) : res (list text * list (string * istorage)) :=
  let* relevant := irelevant_of N name in
  match relevant with
  | Some [] => Ok ([], is_storage N)
  | _ =>
      let* s := dict_lookup (is_storage N) name in
      let* (l, effects, _, _) := construct_assignment_equations unit fine fit rank (ih_effects s) (is_unsafe N) relevant in
      Ok (effects, dict_set (is_storage N) name (mk_istorage (ih_monomials s) (ih_hull s) l))
  end.
(** 157-167 [_create_safe_action].  44-54 [_remove_deprecated_numeric_preconditions] makes a new condition with the old operands that
    are not numeric; the inequality preconditions of the old one are not copied. *)
Definition create_incremental_action (N : ilearner) (name : string) (a : action) : res (action * (list text * list text) * list (string * istorage)) :=
  let* conditions := construct_incremental_preconditions N name in
  let* (effects, st) := construct_incremental_effects N name in
  Ok (with_ineq a [], (conditions, effects), st).

(** 169-195 [_create_safe_action_model]: the actions that are allowed and the report, in the order of the domain *)
Fixpoint create_incremental_actions (N : ilearner) (actions : list (string * action))
  : res (list (string * action) * list (string * (list text * list text)) * list (string * istorage) * list (string * nverdict)) :=
  match actions with
  | [] => Ok ([], [], is_storage N, [])
  | (name, a) :: actions =>
      if negb (dict_mem name (is_storage N)) then create_incremental_actions N actions
      else match create_incremental_action N name a with
           | Ok (a', numeric, st) =>
               let* (allowed, nums, st', report) := create_incremental_actions (iwith_storage N st) actions in
               Ok ((name, a') :: allowed, (name, numeric) :: nums, st', (name, nv_ok) :: report)
           | Err NotSafeError =>
               let* (allowed, nums, st', report) := create_incremental_actions N actions in
               Ok (allowed, nums, st', (name, nv_not_safe) :: report)
           | Err e => Err e
           end
  end.
Definition create_incremental_model (N : ilearner) : res (ilearner * list (string * nverdict)) :=
  let* (allowed, nums, st, report) := create_incremental_actions N (d_actions (s_dom (is_sam N))) in
  Ok (mk_ilearner (with_dom (is_sam N) (set_actions (s_dom (is_sam N)) allowed)) st nums (is_relevant N) (is_unsafe N) (is_degree N), report).

(** 197-224 [learn_action_model] *)
Definition learn_icomponents (N : ilearner) (obs : list (list ncomponent)) : res ilearner :=
  fold_res (fun N o => fold_res (fun N cp => if cp_ok (nc_comp cp) then handle_icomponent N cp else Ok N) o N) obs N.
Definition learn_incremental_model (N : ilearner) (obs : list (list ncomponent)) : res (ilearner * list (string * nverdict)) :=
  match d_funcs (s_dom (is_sam N)) with
  | [] => let* (L, report) := learn_action_model (is_sam N) (map (map nc_comp) obs) in
          Ok (iwith_sam N L, map (fun nv => (fst nv, nv_sam (snd nv))) report)
  | _ =>
      let L1 := complete_possibly_missing_actions (deduce_initial_inequality_preconditions (is_sam N)) in
      let* N2 := learn_icomponents (iwith_sam N L1) obs in
      create_incremental_model (iwith_sam N2 (handle_negative_preconditions_policy (is_sam N2)))
  end.
End Incremental.
