(** * Model of sam_learning/learners/esam.py

    The nnf package (formulas), scipy's [DisjointSet] and [parse_predicate_from_string] of pddl_plus_parser are
    external.  A variable of a formula is the text of a literal; texts and literals determine each other (C47), so a
    variable is modelled by its literal, and parsing it back is the identity. *)
From Verif Require Export SamModel.

(** [Or] of variables and [And] of such clauses: sets of children. *)
Definition clause := list literal.
(** An entry of [NNF.models()]: a dict from variable to truth value. *)
Definition model := list (literal * bool).

(** nnf [NNF.forget]: existential quantification over the names.  All variables occur positively, so a clause that
    contains one of them is satisfied by making it true. *)
Definition forget (names : list literal) (f : list clause) : list clause :=
  filter (fun cl => negb (existsb (fun v => memb v names) cl)) f.
(** nnf [NNF.implicates]: the prime implicates; for clauses of positive literals these are the inclusion-minimal ones. *)
Definition implicates (f : list clause) : list clause :=
  filter (fun cl => negb (existsb (fun cl' => subsetb cl' cl && negb (subsetb cl cl')) f)) f.
(** nnf [NNF.vars]. *)
Definition vars (f : list clause) : list literal := to_set (concat f).
Fixpoint assignments_of (vs : list literal) : list model :=
  match vs with
  | [] => [[]]
  | v :: vs' => flat_map (fun m => [(v, true) :: m; (v, false) :: m]) (assignments_of vs')
  end.
Definition selected (m : model) (v : literal) : bool := match dict_get m v with Some b => b | None => false end.
(** nnf [NNF.models]: the satisfying assignments of the variables of the sentence. *)
Definition models (f : list clause) : list model :=
  filter (fun m => forallb (fun cl => existsb (selected m) cl) f) (assignments_of (vars f)).

(** esam.py:38-54 [__init__]: the SAM learner, [triplet_snapshot], [action_effects_cnfs], [cannot_be_effects],
    [cnf_eff] and [encoders].  The functions stored in [encoders] are modelled by the name of their proxy action. *)
Record esam := mkEsam
  { e_sam : learner;
    e_snap : list literal * list literal;
    e_clauses : list (string * list clause);
    e_cannot : list (string * list literal);
    e_cnf : list (string * list clause);
    e_encoders : list (string * list string) }.

Definition init_esam (dom : domain) (policy : neg_policy) : esam :=
  mkEsam (init_learner dom policy true) ([], [])
    (map (fun na => (fst na, [])) (d_actions dom)) (map (fun na => (fst na, [])) (d_actions dom)) [] [].
Definition with_esam (E : esam) (L : learner) : esam :=
  mkEsam L (e_snap E) (e_clauses E) (e_cannot E) (e_cnf E) (e_encoders E).

(** The snapshot is a public attribute; the correct way to fill it (sam_learning.py:248-252). *)
Definition take_snapshot (E : esam) (prev next : state) (c : call) : res esam :=
  let* s := triplet_snapshot (s_dom (e_sam E)) prev next c in
  Ok (mkEsam (e_sam E) s (e_clauses E) (e_cannot E) (e_cnf E) (e_encoders E)).

(** esam.py:56-67 [encode]; the inner functions (273-307) are unreachable, see [handle_lifted_action_instances]. *)
Definition encode (E : esam) (c : call) : res (list string) := dict_lookup (e_encoders E) (c_name c).

(** esam.py:72-91 [_get_is_eff_clause_for_predicate]. *)
Definition eff_clause (E : esam) (c : call) (g : literal) : res clause :=
  let* ms := match_predicate (s_dom (e_sam E)) g c None in Ok (to_set ms).

(** esam.py:93-116 [handle_effects]. *)
Definition handle_effects (E : esam) (c : call) : res esam :=
  let '(prev, next) := e_snap E in
  let '(adds, dels) := extract_discrete_effects prev next in
  let* cs := fold_res (fun cs g =>
                         let* cl := eff_clause E c g in
                         let* old := dict_lookup cs (c_name c) in
                         Ok (dict_set cs (c_name c) (set_add cl old)))
                      (set_union adds dels) (e_clauses E) in
  let* cannot := dict_lookup (e_cannot E) (c_name c) in
  Ok (mkEsam (e_sam E) (e_snap E) cs
        (dict_set (e_cannot E) (c_name c) (set_union cannot (extract_not_effects next))) (e_cnf E) (e_encoders E)).

(** esam.py:118-130 [add_new_action]: [handle_effects] is called with three arguments. *)
Definition esam_add_new_action (E : esam) (c : call) : res esam :=
  let* a := dict_lookup (d_actions (s_dom (e_sam E))) (c_name c) in
  let L1 := with_observed (e_sam E) (s_observed (e_sam E) ++ [a_name a]) in
  let* _ := add_new_action_preconditions L1 c (fst (e_snap E)) in
  Err TypeError.

(** esam.py:132-143 [update_action]. *)
Definition esam_update_action (E : esam) (c : call) : res esam :=
  let* L1 := update_action_preconditions (e_sam E) c (fst (e_snap E)) in
  handle_effects (with_esam E L1) c.

(** esam.py:145-164 [handle_single_trajectory_component]: line 153 passes [observation_objects], which
    environment_snapshot.py:81-86 does not accept. *)
Definition esam_handle_component (E : esam) (cp : component) : res esam := Err TypeError.

(** esam.py:166-178 [build_cnf_formulas]. *)
Definition build_cnf_formulas (E : esam) : res esam :=
  let* f := map_res (fun nc : string * list clause =>
                       let* cannot := dict_lookup (e_cannot E) (fst nc) in
                       Ok (fst nc, implicates (forget cannot (snd nc)))) (e_clauses E) in
  Ok (mkEsam (e_sam E) (e_snap E) (e_clauses E) (e_cannot E) f (e_encoders E)).

(** esam.py:180-199 [is_proxy_contradiction]. *)
Definition is_proxy_contradiction (E : esam) (negative : list literal) (name : string) : res bool :=
  match negative with
  | [] => Ok false
  | _ => let* a := dict_lookup (d_actions (s_dom (e_sam E))) name in
         Ok (existsb (fun l => memb (copy_lit true l) (a_pre a)) negative)
  end.

(** ** scipy.cluster.hierarchy.DisjointSet: elements in insertion order with the root of their class *)
Definition disjoint := list (string * string).
Definition singletons (l : list string) : disjoint := map (fun x => (x, x)) l.
Definition class_size (ds : disjoint) (r : string) : nat := length (filter (fun kv => eqb (snd kv) r) ds).
Fixpoint index_of (x : string) (l : list string) : nat :=
  match l with [] => 0 | y :: l' => if eq_dec x y then 0 else S (index_of x l') end.
(** [merge]: the larger class keeps its root, on a tie the root that was inserted first. *)
Definition ds_merge (ds : disjoint) (x y : string) : res disjoint :=
  let* xr := dict_lookup ds x in
  let* yr := dict_lookup ds y in
  if eq_dec xr yr then Ok ds
  else
    let swap := (class_size ds xr <? class_size ds yr)
                || ((class_size ds xr =? class_size ds yr) && (index_of yr (dict_keys ds) <? index_of xr (dict_keys ds))) in
    let '(keep, gone) := if swap then (yr, xr) else (xr, yr) in
    Ok (map (fun kv => (fst kv, if eq_dec (snd kv) gone then keep else snd kv)) ds).

(** [l[i].add(x)] *)
Fixpoint add_at (l : list (list string)) (i : nat) (x : string) : res (list (list string)) :=
  match l, i with
  | [], _ => Err IndexError
  | s :: l', 0 => Ok (set_add x s :: l')
  | s :: l', S i' => let* l'' := add_at l' i' x in Ok (s :: l'')
  end.
(** [enumerate(l)] *)
Definition enumerate {A} (l : list A) : list (nat * A) := combine (seq 0 (length l)) l.

(** esam.py:419-421. *)
Definition empty_occurrences (m : model) : list (string * list (list string)) :=
  fold_left (fun d lv => dict_set d (l_name (fst lv)) (map (fun _ => []) (l_args (fst lv)))) m [].
(** esam.py:423-426. *)
Definition not_to_minimize (m : model) : list string :=
  fold_left (fun s (lv : literal * bool) => if snd lv then s else set_union s (l_args (fst lv))) m [].
(** esam.py:430-433. *)
Definition occurrences (m : model) : res (list (string * list (list string))) :=
  fold_res (fun d (lv : literal * bool) =>
              fold_res (fun d ip =>
                          if memb (snd ip) (not_to_minimize m) then Ok d
                          else let* occ := dict_lookup d (l_name (fst lv)) in
                               let* occ' := add_at occ (fst ip) (snd ip) in
                               Ok (dict_set d (l_name (fst lv)) occ'))
                       (enumerate (l_args (fst lv))) d)
           m (empty_occurrences m).
(** esam.py:435-442: [len(...) < 0] never holds. *)
Definition merge_position (sig : list string) (ds : disjoint) (equality_set : list string) : res disjoint :=
  match filter (fun p => memb p equality_set) sig with
  | [] => Ok ds
  | first :: rest => fold_res (fun ds p => ds_merge ds first p) (first :: rest) ds
  end.
(** esam.py:398-446 [minimize_parameters_equality_dict]; [sig] is the list of parameters. *)
Definition minimize_parameters (m : model) (sig : list string) : res (list (string * string)) :=
  match m with
  | [] => Ok []
  | _ =>
      let* occ := occurrences m in
      let* ds := fold_res (merge_position sig) (concat (dict_vals occ)) (singletons sig) in
      map_res (fun p => let* r := dict_lookup ds p in Ok (p, r)) sig
  end.

(** esam.py:449-459 [modify_predicate_signature], for one predicate: the new signature is a dict, so repeated
    parameters collapse. *)
Definition modify_literal (d : list (string * string)) (l : literal) : res literal :=
  let* args := map_res (dict_lookup d) (l_args l) in
  Ok (mkLit (l_name l) (to_set args) (l_pos l)).
Definition modify_predicate_signature (ls : list literal) (d : list (string * string)) : res (list literal) :=
  let* r := map_res (modify_literal d) ls in Ok (to_set r).

(** [str(proxy_number)] (the number is never 0 here). *)
Definition proxy_name (name : string) (number : string) : string := append name (append "_" number).

(** esam.py:201-243 [construct_proxy_action].  The name is left to the caller. *)
Definition construct_proxy_action (E : esam) (action_name : string) (missing effects : list literal)
    (mapping : list (string * string)) (new_name : string) : res action :=
  let* a := dict_lookup (d_actions (s_dom (e_sam E))) action_name in
  let* eff := modify_predicate_signature effects mapping in
  let* pre := modify_predicate_signature (set_union (to_set missing) (a_pre a)) mapping in
  let reversed := dict_of (map (fun on => (snd on, fst on)) mapping) in
  let* sig := map_res (fun p => let* t := dict_lookup (a_sig a) p in Ok (p, t)) (dict_keys reversed) in
  Ok (mkAct new_name sig pre [] eff).

(** esam.py:34-37 [ProxyActionData]. *)
Record proxy := mkProxy { x_pre : list literal; x_eff : list literal; x_sig : list (string * string) }.

(** esam.py:245-313 [handle_lifted_action_instances]: line 309 looks up [self.encoders[action_name]], a dict that
    nothing fills.  The decoder (line 308) is stored but not modelled. *)
Fixpoint handle_lifted (E : esam) (name : string) (proxies : list proxy) (numbers : list string) : res esam :=
  match proxies, numbers with
  | p :: proxies', k :: numbers' =>
      let* a := construct_proxy_action E name (x_pre p) (x_eff p) (x_sig p) (proxy_name name k) in
      let E1 := with_esam E (put_action (e_sam E) (a_name a) a) in
      let* fs := dict_lookup (e_encoders E1) name in
      handle_lifted (mkEsam (e_sam E1) (e_snap E1) (e_clauses E1) (e_cannot E1) (e_cnf E1)
                       (dict_set (e_encoders E1) name (fs ++ [a_name a]))) name proxies' numbers'
  | _, _ =>
      let* _ := dict_lookup (d_actions (s_dom (e_sam E))) name in
      Ok (with_esam E (with_dom (e_sam E) (set_actions (s_dom (e_sam E)) (dict_pop (d_actions (s_dom (e_sam E))) name))))
  end.

(** esam.py:323-356: the proxies of one action. *)
Definition proxies_of (E : esam) (name : string) (f : list clause) : res (list proxy) :=
  fold_res (fun acc (m : model) =>
              let negative := to_set (map fst (filter (fun lv => negb (snd lv)) m)) in
              let positive := set_diff (to_set (map fst m)) negative in
              let* contradiction := is_proxy_contradiction E negative name in
              if (contradiction : bool) then Ok acc
              else
                let* sig := dict_lookup (s_sigs (e_sam E)) name in
                let* d := minimize_parameters m (dict_keys sig) in
                Ok (acc ++ [mkProxy negative positive d]))
           (models f) [].

(** esam.py:358-370: one action.  [numbers] are the texts of 1, 2, ... *)
Definition construct_safe_action (numbers : list string) (E : esam) (name : string) : res esam :=
  let* f := dict_lookup (e_cnf E) name in
  let* ps := proxies_of E name f in
  match ps with
  | [] => Err ValueError
  | [p] =>
      let* a := dict_lookup (d_actions (s_dom (e_sam E))) name in
      Ok (with_esam E (put_action (e_sam E) name (with_eff (with_pre a (set_union (a_pre a) (x_pre p))) (x_eff p))))
  | _ => handle_lifted E name ps numbers
  end.
(** esam.py:315-370 [construct_safe_actions]. *)
Definition esam_construct_safe_actions (numbers : list string) (E : esam) : res esam :=
  fold_res (construct_safe_action numbers) (s_observed (e_sam E)) E.

(** esam.py:372-392 [learn_action_model]. *)
Definition esam_learn (numbers : list string) (E : esam) (obs : list (list component))
  : res (esam * list (string * verdict)) :=
  let E1 := with_esam E (complete_possibly_missing_actions (e_sam E)) in
  let* E2 := fold_res (fun E o => fold_res esam_handle_component o E) obs E1 in
  let E3 := with_esam E2 (handle_unobserved_actions (handle_negative_preconditions_policy (e_sam E2))) in
  let* E4 := build_cnf_formulas E3 in
  let* E5 := esam_construct_safe_actions numbers E4 in
  Ok (E5, learning_report (e_sam E5)).
