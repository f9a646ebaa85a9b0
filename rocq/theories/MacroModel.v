(** * Model of sam_learning/learners/ma_sam_plus.py, utilities/macro_actions_parser.py and the parts of
    sam_learning/core/propositional_operations/literals_cnf.py that serve macro actions *)
From Coq Require Import Ascii.
From Verif Require Export MaModel TextModel.
Open Scope string_scope.
Open Scope list_scope.
Open Scope nat_scope.

(** literals_cnf.py:9 [PGType]: groups of (action name, parameter name) pairs.  Python sets are duplicate-free
    lists; their iteration order is the order of the list. *)
Definition param := (string * string)%type.

(** ** Regular expressions *)

(** [re.findall(r"\?\w+", s)].  [cur] is the match being read, starting with the question mark. *)
Definition flush_param (cur : option string) : list string :=
  match cur with
  | None => []
  | Some w => if eqb w "?" then [] else [w]
  end.
Fixpoint scan_params (cur : option string) (s : string) : list string :=
  match s with
  | "" => flush_param cur
  | String c s' =>
      match cur with
      | Some w => if is_word c then scan_params (Some (w ++ String c "")%string) s'
                  else flush_param cur ++ scan_params (if is_char "?" c then Some "?" else None) s'
      | None => scan_params (if is_char "?" c then Some "?" else None) s'
      end
  end.
Definition find_params (s : string) : list string := scan_params None s.

(** [re.findall(r"[^\s()]+", s)] *)
Definition token_char (c : ascii) : bool := negb (is_space c || is_char "(" c || is_char ")" c).
Definition flush_token (cur : string) : list string := if eqb cur "" then [] else [cur].
Fixpoint scan_tokens (cur : string) (s : string) : list string :=
  match s with
  | "" => flush_token cur
  | String c s' => if token_char c then scan_tokens (cur ++ String c "")%string s'
                   else flush_token cur ++ scan_tokens "" s'
  end.
Definition find_tokens (s : string) : list string := scan_tokens "" s.

(** ** Sorting texts by code points *)
Fixpoint insert_text {A} (key : A -> string) (x : A) (l : list A) : list A :=
  match l with
  | [] => [x]
  | y :: l' => if String.leb (key x) (key y) then x :: y :: l' else y :: insert_text key x l'
  end.
(** [sorted(l, key=key)]: stable. *)
Definition sort_text {A} (key : A -> string) (l : list A) : list A := fold_right (insert_text key) [] l.

Section Graph.
Context {A : Type} `{EqDec A}.

(** ** ma_sam_plus.py:27-47 [combine_groupings]; networkx graphs and [nx.connected_components]. *)
Record graph := mkGraph { g_nodes : list A; g_edges : list (A * A) }.
Definition add_node (g : graph) (u : A) : graph := mkGraph (set_add u (g_nodes g)) (g_edges g).
Definition add_edge (g : graph) (e : A * A) : graph :=
  mkGraph (set_add (snd e) (set_add (fst e) (g_nodes g))) (g_edges g ++ [e]).

(** ma_sam_plus.py:34-39: one group. *)
Definition add_group (g : graph) (group : list A) : res graph :=
  match group with
  | [] => Err StopIteration
  | [u] => Ok (add_node g u)
  | _ => Ok (fold_left add_edge (pairs2 group) g)
  end.

Definition neighbours (g : graph) (u : A) : list A :=
  flat_map (fun e => (if eqb (fst e) u then [snd e] else []) ++ (if eqb (snd e) u then [fst e] else [])) (g_edges g).

(** networkx [_plain_bfs]: level by level; the number of levels is at most the number of nodes. *)
Fixpoint bfs (g : graph) (fuel : nat) (seen level : list A) : list A :=
  match fuel with
  | 0 => seen
  | S fuel' =>
      match set_diff (to_set (flat_map (neighbours g) level)) seen with
      | [] => seen
      | next => bfs g fuel' (seen ++ next) next
      end
  end.
Definition component_of (g : graph) (u : A) : list A := bfs g (length (g_nodes g)) [u] [u].

(** networkx [connected_components]: one component per node that no earlier component contains. *)
Definition connected_components (g : graph) : list (list A) :=
  snd (fold_left (fun (acc : list A * list (list A)) u =>
                    if memb u (fst acc) then acc
                    else let c := component_of g u in (fst acc ++ c, snd acc ++ [c]))
                 (g_nodes g) ([], [])).

Definition combine_groupings (binding_groups_sets : list (list A)) : res (list (list A)) :=
  let* g := fold_res add_group binding_groups_sets (mkGraph [] []) in
  Ok (connected_components g).

(** ma_sam_plus.py:50-61 [generate_supersets_of_actions]. *)
Definition generate_supersets (action_groups : list (list A)) : list (list A) :=
  flat_map (fun r => map (fun c => to_set (concat c)) (combs r action_groups)) (seq 1 (length action_groups)).
End Graph.
Arguments graph : clear implicits.

(** ** literals_cnf.py:41-62 [group_params_from_clause] *)

(** [clause_param_grouping[idx].add(x)] *)
Fixpoint add_at {A} `{EqDec A} (idx : nat) (x : A) (groups : list (list A)) : res (list (list A)) :=
  match groups, idx with
  | [], _ => Err IndexError
  | g :: gs, 0 => Ok (set_add x g :: gs)
  | g :: gs, S i => let* gs' := add_at i x gs in Ok (g :: gs')
  end.
(** literals_cnf.py:57-60: the parameters of one literal. *)
Definition add_params (groups : list (list param)) (p : cpair) : res (list (list param)) :=
  let parameters := find_params (untyped (snd p)) in
  fold_res (fun gs (ix : nat * string) => add_at (fst ix) (fst p, snd ix) gs)
           (combine (seq 0 (length parameters)) parameters) groups.
Definition group_params_from_clause (clause : list cpair) : res (list (list param)) :=
  match clause with
  | [] => Err IndexError
  | p :: _ => fold_res add_params clause (repeat [] (length (find_params (untyped (snd p)))))
  end.

(** literals_cnf.py:12-38 [is_clause_consistent]. *)
Definition is_clause_consistent (clause : list cpair) (macro_action_group_names : list string)
  (parameter_grouping_of_macro : list (list param)) : res bool :=
  if forallb (fun p : cpair => memb (fst p) macro_action_group_names) clause then
    let* parameter_grouping_of_clause := group_params_from_clause clause in
    Ok (forallb (fun cg => existsb (subsetb cg) parameter_grouping_of_macro) parameter_grouping_of_clause)
  else Ok false.

(** literals_cnf.py:171-191 [extract_macro_action_effects]. *)
Definition extract_macro_action_effects (k : cnf) (action_names : list string) (action_preconditions : list literal)
  (param_grouping : list (list param)) : res (list cpair) :=
  fold_res (fun effects clause =>
              let* consistent := is_clause_consistent clause action_names param_grouping in
              Ok (if (consistent : bool)
                  then effects ++ filter (fun p : cpair => negb (memb (snd p) action_preconditions)) clause
                  else effects)) (n_clauses k) [].

(** literals_cnf.py:193-207 [extract_macro_action_preconditions]. *)
Definition extract_macro_action_preconditions (k : cnf) (action_names : list string)
  (param_grouping : list (list param)) : res (list cpair) :=
  fold_res (fun preconditions clause =>
              let* consistent := is_clause_consistent clause action_names param_grouping in
              Ok (if (consistent : bool) then preconditions
                  else preconditions ++ filter (fun p : cpair => memb (fst p) action_names) clause)) (n_clauses k) [].

(** ** macro_actions_parser.py *)

(** macro_actions_parser.py:8-9 [BindingType], [MappingElement]. *)
Definition binding := list (param * string).
Definition mapping_element := (list string * binding)%type.

(** macro_actions_parser.py:15-29 [_return_sub_type]; types are never falsy. *)
Definition return_sub_type (type1 type2 : ptype) : ptype := if is_sub_type type1 type2 then type1 else type2.

(** macro_actions_parser.py:31-43 [generate_macro_action_name]; [uuid] is the text of [uuid4()]. *)
Definition generate_macro_action_name (uuid : string) (action_names other_macro_actions : list string) : string :=
  let name_candidate := String.concat "-" action_names in
  if memb name_candidate other_macro_actions then (name_candidate ++ "---" ++ uuid)%string else name_candidate.

(** macro_actions_parser.py:57-61: the parameters of the actions in order of the action names. *)
Definition all_params (actions : list action) : list (param * ptype) :=
  dict_of (flat_map (fun a => map (fun pt : string * ptype => ((a_name a, fst pt), snd pt)) (a_sig a)) (sort_text a_name actions)).
(** macro_actions_parser.py:45-75 [generate_macro_action_signature]. *)
Definition generate_macro_action_signature (actions : list action) (mapping : binding) : signature :=
  fold_left (fun (sig : signature) (kt : param * ptype) =>
               match dict_get mapping (fst kt) with
               | None => sig
               | Some name => match dict_get sig name with
                              | None => dict_set sig name (snd kt)
                              | Some t => dict_set sig name (return_sub_type (snd kt) t)
                              end
               end) (all_params actions) [].

(** macro_actions_parser.py:77-87 [adapt_predicate_to_macro_mapping]: the new signature is a dictionary. *)
Definition adapt_predicate (mapping : binding) (l : literal) (relevant_action : string) : res literal :=
  let* args := map_res (fun p => dict_lookup mapping (relevant_action, p)) (l_args l) in
  Ok (mkLit (l_name l) (to_set args) (l_pos l)).

(** [list.index] for a text known to be in the list. *)
Fixpoint index_of (x : string) (l : list string) : nat :=
  match l with [] => 0 | y :: l' => if eqb x y then 0 else S (index_of x l') end.
(** [s[1:]] *)
Definition tail_text (s : string) : string := match s with "" => "" | String _ s' => s' end.

(** macro_actions_parser.py:107: the macro parameter that stands for a merged group. *)
Definition merged_name (group : list param) : string :=
  String "?" (String.concat "" (sort_text (fun x => x) (map (fun p : param => tail_text (snd p)) group))).
(** macro_actions_parser.py:97-103: every parameter by itself, marked by the position of its action. *)
Definition separate_bindings (actions : list action) : binding :=
  let ordered := sort_text a_name actions in
  let names := map a_name ordered in
  dict_of (flat_map (fun a => map (fun p => ((a_name a, p), (p ++ "_" ++ decimal (index_of (a_name a) names))%string))
                                  (dict_keys (a_sig a))) ordered).
(** macro_actions_parser.py:89-111 [generate_macro_mappings]. *)
Definition generate_macro_mappings (groupings : list (list param)) (actions : list action) : binding :=
  fold_left (fun m group =>
               if 1 <? length group then fold_left (fun m p => dict_set m p (merged_name group)) group m else m)
            groupings (separate_bindings actions).

(** macro_actions_parser.py:140-143: the object bound to the first macro parameter of that name, if any. *)
Definition bound_object (params_name params_bound : list string) (macro_param : string) : option string :=
  dict_get (combine params_name params_bound) macro_param.
(** macro_actions_parser.py:130-146: the line of one micro action. *)
Definition micro_line (params_name params_bound : list string) (mapping : binding) (a : string) : string :=
  ("(" ++ a ++
   fold_left (fun line (kv : param * string) =>
                if eqb (fst (fst kv)) a
                then match bound_object params_name params_bound (snd kv) with
                     | Some o => (line ++ " " ++ o)%string
                     | None => line
                     end
                else line) mapping "" ++ ")")%string.
(** macro_actions_parser.py:113-148 [extract_actions_from_macro_action]. *)
Definition extract_actions_from_macro_action (action_line : string) (mapper : list (string * mapping_element))
  : res (list string) :=
  match find_tokens action_line with
  | [] => Err IndexError
  | macro_name :: params_bound =>
      match dict_get mapper macro_name with
      | None => Ok [action_line]
      | Some (params_name, mapping) =>
          let action_names := to_set (map (fun kv : param * string => fst (fst kv)) mapping) in
          Ok (to_set (map (micro_line params_name params_bound mapping) action_names))
      end
  end.

(** ** ma_sam_plus.py: the learner *)

(** ma_sam_plus.py:79-89 [_extract_predicate_from_clause_and_adapt_to_macro]. *)
Definition adapt_from_text (dom : domain) (action_name : string) (fluent : literal) (mapping : binding) : res literal :=
  let* a := dict_lookup (d_actions dom) action_name in
  let* predicate := extract_predicate_data (dict_keys (a_sig a) ++ dict_keys (d_consts dom)) (untyped fluent) in
  adapt_predicate mapping predicate action_name.

(** ma_sam_plus.py:91-112 [extract_relevant_action_groups]; a domain's actions are stored under their names. *)
Definition relevant_action_groups (dom : domain) (cs : list ((string * bool) * cnf)) (unsafe : list string) : list (list string) :=
  fold_left (fun groups clause =>
               let clause_actions := map fst clause in
               if (1 <? length clause) && existsb (fun n => memb n clause_actions) unsafe then
                 let group := filter (fun n => memb n clause_actions) (map (fun na : string * action => a_name (snd na)) (d_actions dom)) in
                 if existsb (set_eqb group) groups then groups else groups ++ [group]
               else groups) (flat_map (fun kc : (string * bool) * cnf => n_clauses (snd kc)) cs) [].
Definition extract_relevant_action_groups (dom : domain) (cs : list ((string * bool) * cnf)) (unsafe : list string)
  : res (list (list action)) :=
  map_res (map_res (dict_lookup (d_actions dom))) (generate_supersets (relevant_action_groups dom cs unsafe)).

(** ma_sam_plus.py:114-132 [extract_relevant_parameter_groupings]; it returns a list of one grouping. *)
Definition extract_relevant_parameter_groupings (cs : list ((string * bool) * cnf)) (action_group_names : list string)
  : res (list (list param)) :=
  let relevant := filter (fun clause => forallb (fun p : cpair => memb (fst p) action_group_names) clause)
                         (flat_map (fun kc : (string * bool) * cnf => n_clauses (snd kc)) cs) in
  let* groups := map_res group_params_from_clause relevant in
  combine_groupings (concat groups).

(** ma_sam_plus.py:134-157 [extract_effects_for_macro_from_cnf]. *)
Definition extract_effects_for_macro (dom : domain) (cs : list ((string * bool) * cnf)) (group : list action)
  (grouping : list (list param)) (mapping : binding) : res (list literal) :=
  let names := map a_name group in
  let pre := flat_map a_pre group in
  let* effects := map_res (fun kc : (string * bool) * cnf => extract_macro_action_effects (snd kc) names pre grouping) cs in
  let* adapted := map_res (fun p : cpair => adapt_from_text dom (fst p) (snd p) mapping) (concat effects) in
  Ok (to_set adapted).

(** ma_sam_plus.py:159-188 [extract_preconditions_for_macro_from_cnf]. *)
Definition extract_preconditions_for_macro (dom : domain) (cs : list ((string * bool) * cnf)) (group : list action)
  (grouping : list (list param)) (mapping : binding) : res (list literal) :=
  let names := map a_name group in
  let* vague := map_res (fun kc : (string * bool) * cnf => extract_macro_action_preconditions (snd kc) names grouping) cs in
  let* p1 := map_res (fun p : cpair => adapt_from_text dom (fst p) (snd p) mapping) (concat vague) in
  let* p2 := map_res (fun p : cpair => adapt_from_text dom (fst p) (snd p) mapping)
                     (flat_map (fun a => map (fun l => (a_name a, l)) (a_pre a)) group) in
  Ok (to_set (p1 ++ p2)).

(** What the construction of the macro actions updates: the domain, the lists of safe and observed actions, the
    names given so far and [self.mapping]. *)
Record plus := mkPlus
  { p_dom : domain; p_safe : list string; p_observed : list string; p_names : list string;
    p_mapping : list (string * mapping_element) }.

(** ma_sam_plus.py:195-214, for one group; [uuid] is what [uuid4()] would return.  The new action has no
    inequality preconditions. *)
Definition construct_macro (uuid : string) (cs : list ((string * bool) * cnf)) (P : plus) (group : list action) : res plus :=
  let names := sort_text (fun n => n) (map a_name group) in
  let* grouping := extract_relevant_parameter_groupings cs names in
  let mapper := generate_macro_mappings grouping group in
  let name := generate_macro_action_name uuid names (p_names P) in
  let sig := generate_macro_action_signature group mapper in
  let* pre := extract_preconditions_for_macro (p_dom P) cs group grouping mapper in
  let* eff := extract_effects_for_macro (p_dom P) cs group grouping mapper in
  Ok (mkPlus (set_actions (p_dom P) (dict_set (d_actions (p_dom P)) name (mkAct name sig pre [] eff)))
             (p_safe P ++ [name]) (p_observed P ++ [name]) (p_names P ++ [name])
             (dict_set (p_mapping P) name (dict_keys sig, mapper))).

(** ma_sam_plus.py:190-217 [construct_safe_macro_actions]; [uuids i] is drawn for the [i]-th group. *)
Definition construct_safe_macro_actions (uuids : nat -> string) (M : ma_learner) : res (ma_learner * list (string * mapping_element)) :=
  let L := m_sam M in
  let* groups := extract_relevant_action_groups (s_dom L) (m_cnfs M) (m_unsafe M) in
  let* P := fold_res (fun P (ig : nat * list action) => construct_macro (uuids (fst ig)) (m_cnfs M) P (snd ig))
                     (combine (seq 0 (length groups)) groups)
                     (mkPlus (s_dom L) (s_safe L) (s_observed L) [] []) in
  let* acts := fold_res (fun acts n => let* _ := dict_lookup acts n in Ok (dict_pop acts n)) (m_unsafe M) (d_actions (p_dom P)) in
  Ok (with_sam M (mkLearner (set_actions (p_dom P) acts) (p_observed P) (p_safe P) (s_cbe L) (s_sigs L) (s_policy L) (s_injective L)),
      p_mapping P).

(** ma_sam_plus.py:219-243 [learn_combined_action_model_with_macro_actions]. *)
Definition learn_with_macros (uuids : nat -> string) (M : ma_learner) (obs : list (list joint))
  : res (ma_learner * list (string * verdict) * list (string * mapping_element)) :=
  let M0 := initialize_cnfs M in
  let M1 := with_sam M0 (deduce_initial_inequality_preconditions (m_sam M0)) in
  let* M2 := learn_joints M1 obs in
  let* M3 := construct_safe_actions false M2 in
  let* (M4, mapping) := construct_safe_macro_actions uuids M3 in
  let M5 := with_sam M4 (handle_negative_preconditions_policy (m_sam M4)) in
  Ok (M5, learning_report (m_sam M5), mapping).
