(** * Properties C23, C24, C52-C54: macro actions

    Only theorems; every proof is a reference to a lemma.  Specifications: StripsSpec.v, SamSpec.v, MaSpec.v, MacroSpec.v. *)
From Verif Require Import PreludeProofs MaModel MaSpec MacroModel MacroSpec GroupProofs MacroText MacroMapping MacroWhole.
Open Scope nat_scope.

(** C23.  The expansion of a macro call: one line for each micro action that has parameters, with the objects bound to the
    macro parameters its own parameters are mapped to, in its own order. *)
Theorem C23_macro_expansion groupings actions (mapper : list (string * mapping_element)) n objs :
  action_set actions -> groups_over groupings actions ->
  let mp := generate_macro_mappings groupings actions in
  let ps := dict_keys (generate_macro_action_signature actions mp) in
  dict_get mapper n = Some (ps, mp) -> token n -> Forall token objs -> length objs = length ps ->
  exists lines, extract_actions_from_macro_action (call_line (mkCall n objs)) mapper = Ok lines /\ NoDup lines /\
    forall line, In line lines <->
      exists act, In act actions /\ a_sig act <> [] /\ line = call_line (micro_call mp (bind_objects ps objs) act).
Proof. exact (macro_expansion groupings actions mapper n objs). Qed.
Print Assumptions C23_macro_expansion.

(** Parameters of one group receive the same object. *)
Theorem C23_groups_share_objects groupings actions sg g a p b q :
  action_set actions -> groups_over groupings actions -> NoDup (concat groupings) -> In g groupings -> In (a, p) g -> In (b, q) g ->
  macro_value (generate_macro_mappings groupings actions) sg a p = macro_value (generate_macro_mappings groupings actions) sg b q.
Proof. exact (group_value groupings actions sg g a p b q). Qed.
Print Assumptions C23_groups_share_objects.

(** Every parameter of the micro actions is mapped to a parameter of the macro action, and nothing else is mapped. *)
Theorem C23_mapping_covers groupings actions :
  action_set actions -> groups_over groupings actions -> maps_all (generate_macro_mappings groupings actions) actions.
Proof. exact (mapping_maps_all groupings actions). Qed.
Print Assumptions C23_mapping_covers.

(** Lines of other actions are returned unchanged. *)
Theorem C23_other_lines_unchanged (mapper : list (string * mapping_element)) c :
  token (c_name c) -> Forall token (c_params c) -> dict_get mapper (c_name c) = None ->
  extract_actions_from_macro_action (call_line c) mapper = Ok [call_line c].
Proof. exact (fun H1 H2 G => no_macro (call_line c) mapper (c_name c) (c_params c) (find_tokens_line c H1 H2) G). Qed.
Print Assumptions C23_other_lines_unchanged.

(** C24.  Merged groups form a partition of everything mentioned; two elements are in one class iff a chain of
    overlapping groups connects them. *)
Theorem C24_groups_merged {A} `{EqDec A} (groups : list (list A)) :
  (forall c, In c groups -> NoDup c /\ c <> []) ->
  exists classes, combine_groupings groups = Ok classes /\
    NoDup (concat classes) /\ (forall x, union_of classes x <-> union_of groups x) /\
    (forall c, In c classes -> c <> [] /\ forall x, In x c -> forall y, In y c <-> linked groups x y).
Proof. exact (combine_spec groups). Qed.
Print Assumptions C24_groups_merged.

(** The merge raises exactly when some group is empty. *)
Theorem C24_merge_fails_on_empty_group {A} `{EqDec A} (groups : list (list A)) :
  (forall c, In c groups -> NoDup c) -> (combine_groupings groups = Err StopIteration <-> In [] groups).
Proof. exact (combine_error groups). Qed.
Print Assumptions C24_merge_fails_on_empty_group.

(** C52.  The candidate groups are exactly the unions of the non-empty selections of the input groups. *)
Theorem C52_supersets_are_unions {A} `{EqDec A} (groups : list (list A)) s :
  In s (generate_supersets groups) -> exists sub, sub <> [] /\ incl sub groups /\ forall x, In x s <-> union_of sub x.
Proof. exact (supersets_sound groups s). Qed.
Print Assumptions C52_supersets_are_unions.

Theorem C52_every_union_is_a_superset {A} `{EqDec A} (groups sub : list (list A)) :
  sub <> [] -> incl sub groups -> exists s, In s (generate_supersets groups) /\ forall x, In x s <-> union_of sub x.
Proof. exact (supersets_complete groups sub). Qed.
Print Assumptions C52_every_union_is_a_superset.

(** There are exponentially many of them. *)
Theorem C52_superset_count {A} `{EqDec A} (groups : list (list A)) : S (length (generate_supersets groups)) = 2 ^ length groups.
Proof. exact (supersets_count groups). Qed.
Print Assumptions C52_superset_count.

(** C53.  Whole runs: a macro action is safe to execute as the joint execution of its micro actions. *)
Theorem C53_macro_actions_safe dom real obs uuids M rep mapping n m ps mp :
  wf_domain dom -> blank_domain dom -> real_domain dom real -> macro_domain dom ->
  good_joints dom (concat obs) -> real_joints real (concat obs) ->
  (forall j, In j (concat obs) -> joint_learnable j -> seen_by_last dom real j /\ different_actions j) ->
  learn_with_macros uuids (init_ma dom no_remove) obs = Ok (M, rep, mapping) ->
  dict_get (d_actions (s_dom (m_sam M))) n = Some m -> dict_get mapping n = Some (ps, mp) ->
  exists group, actions_of dom group /\ NoDup (map a_name group) /\ group <> [] /\ maps_all mp group /\
    ps = dict_keys (a_sig m) /\ (forall v, In v ps <-> exists k, dict_get mp k = Some v) /\ macro_safe real mp group m.
Proof. exact (fun W B RD MD GJ RJ Hj E => macro_result dom real obs W B RD MD GJ RJ Hj uuids M rep mapping E n m ps mp). Qed.
Print Assumptions C53_macro_actions_safe.

(** The line of a macro call in a plan expands to the lines of the calls whose joint execution it stands for. *)
Theorem C53_macro_plan_lines dom real obs uuids M rep mapping n m ps mp objs :
  wf_domain dom -> blank_domain dom -> real_domain dom real -> macro_domain dom ->
  good_joints dom (concat obs) -> real_joints real (concat obs) ->
  (forall j, In j (concat obs) -> joint_learnable j -> seen_by_last dom real j /\ different_actions j) ->
  learn_with_macros uuids (init_ma dom no_remove) obs = Ok (M, rep, mapping) ->
  dict_get (d_actions (s_dom (m_sam M))) n = Some m -> dict_get mapping n = Some (ps, mp) ->
  token n -> Forall token objs -> length objs = length (a_sig m) ->
  exists group lines, actions_of dom group /\ NoDup (map a_name group) /\ macro_safe real mp group m /\
    extract_actions_from_macro_action (call_line (mkCall n objs)) mapping = Ok lines /\ NoDup lines /\
    forall line, In line lines <-> exists c, In c (map (micro_call mp (bind_objects ps objs)) group) /\ line = call_line c.
Proof. exact (fun W B RD MD GJ RJ Hj E => macro_plan dom real obs W B RD MD GJ RJ Hj uuids M rep mapping E n m ps mp objs). Qed.
Print Assumptions C53_macro_plan_lines.

(** The actions that are not macro actions are safe, as without macro actions. *)
Theorem C53_other_actions_safe dom real obs uuids M rep mapping n m r :
  wf_domain dom -> blank_domain dom -> real_domain dom real -> macro_domain dom ->
  good_joints dom (concat obs) -> real_joints real (concat obs) ->
  (forall j, In j (concat obs) -> joint_learnable j -> seen_by_last dom real j /\ different_actions j) ->
  learn_with_macros uuids (init_ma dom no_remove) obs = Ok (M, rep, mapping) ->
  dict_get (d_actions (s_dom (m_sam M))) n = Some m -> dict_get mapping n = None -> real n = Some r -> safe_for dom m r.
Proof. exact (fun W B RD MD GJ RJ Hj E => ordinary_safe dom real obs W B RD MD GJ RJ Hj uuids M rep mapping E n m r). Qed.
Print Assumptions C53_other_actions_safe.

(** Learning does not raise when no macro action takes the name of an action. *)
Theorem C53_learning_succeeds dom real obs uuids :
  wf_domain dom -> blank_domain dom -> real_domain dom real -> macro_domain dom ->
  good_joints dom (concat obs) -> real_joints real (concat obs) ->
  (forall j, In j (concat obs) -> joint_learnable j -> seen_by_last dom real j /\ different_actions j) ->
  no_name_clash dom uuids ->
  exists r, learn_with_macros uuids (init_ma dom no_remove) obs = Ok r.
Proof. exact (fun W B RD MD GJ RJ Hj => macros_succeed dom real obs W B RD MD GJ RJ Hj uuids). Qed.
Print Assumptions C53_learning_succeeds.

(** Every clause that mentions an unsafe action and at least one more gives a macro action of the actions of the clause. *)
Theorem C53_macros_constructed dom real obs uuids M rep mapping key k cl u :
  wf_domain dom -> blank_domain dom -> real_domain dom real -> macro_domain dom ->
  good_joints dom (concat obs) -> real_joints real (concat obs) ->
  (forall j, In j (concat obs) -> joint_learnable j -> seen_by_last dom real j /\ different_actions j) ->
  learn_with_macros uuids (init_ma dom no_remove) obs = Ok (M, rep, mapping) -> no_name_clash dom uuids ->
  In (key, k) (m_cnfs M) -> In cl (n_clauses k) -> 1 < length cl -> In u (m_unsafe M) -> In u (map fst cl) ->
  exists ns m ps mp, (forall x, In x ns <-> In x (map fst cl)) /\ dict_get mapping (String.concat "-" ns) = Some (ps, mp) /\
    dict_get (d_actions (s_dom (m_sam M))) (String.concat "-" ns) = Some m.
Proof. exact (fun W B RD MD GJ RJ Hj E => macros_built dom real obs W B RD MD GJ RJ Hj uuids M rep mapping E key k cl u). Qed.
Print Assumptions C53_macros_constructed.

(** C54.  The type of a macro parameter is the smallest of the types it stands for, when those are comparable. *)
Theorem C54_macro_parameter_types groupings actions v t : action_set actions -> groups_over groupings actions ->
  let mp := generate_macro_mappings groupings actions in
  let typed a p u := exists act, In act actions /\ a_name act = a /\ In (p, u) (a_sig act) in
  (forall a1 p1 t1 a2 p2 t2 a3 p3 t3, typed a1 p1 t1 -> typed a2 p2 t2 -> typed a3 p3 t3 ->
     is_sub_type t1 t2 = true -> is_sub_type t2 t3 = true -> is_sub_type t1 t3 = true) ->
  (forall a1 p1 t1 a2 p2 t2, typed a1 p1 t1 -> typed a2 p2 t2 -> dict_get mp (a1, p1) = dict_get mp (a2, p2) ->
     is_sub_type t1 t2 = true \/ is_sub_type t2 t1 = true) ->
  dict_get (generate_macro_action_signature actions mp) v = Some t ->
  (exists a p, typed a p t /\ dict_get mp (a, p) = Some v) /\
  forall a p u, typed a p u -> dict_get mp (a, p) = Some v -> is_sub_type t u = true.
Proof. exact (macro_types groupings actions v t). Qed.
Print Assumptions C54_macro_parameter_types.
