(** * Model of sam_learning/core/environment_snapshot.py and sam_learning/core/matching_utils.py *)
From Verif Require Export VocabModel.

(** environment_snapshot.py:49-53: the vocabulary atoms that the state contains. *)
Definition positive_matches (facts : list (list string)) (vocabulary : list literal) (acc : list literal) : list literal :=
  fold_left (fun acc g => if existsb (fun p => eqb p (l_args g)) facts then set_add (copy_lit false g) acc else acc)
            vocabulary acc.

(** environment_snapshot.py:43-61: one iteration of the loop over the vocabulary. *)
Definition snapshot_step (st : state) (acc : list literal * list literal) (kv : string * list literal)
  : list literal * list literal :=
  let '(pos, neg) := acc in
  let '(key, vocabulary) := kv in
  match dict_get st key with
  | None => (pos, set_union neg (map (copy_lit true) vocabulary))
  | Some facts =>
      let pos' := positive_matches facts vocabulary pos in
      (pos', set_union neg (map (copy_lit true) (set_diff vocabulary pos')))
  end.

(** environment_snapshot.py:31-63 [create_discrete_state_snapshot]. *)
Definition discrete_state_snapshot (dom : domain) (st : state) (relevant_objects : list pobject) : list literal :=
  let '(pos, neg) := fold_left (snapshot_step st) (grounded_predicate_vocabulary dom relevant_objects) ([], []) in
  set_union pos neg.

(** environment_snapshot.py:94-98: objects relevant to a call. *)
Definition parameterized_objects (dom : domain) (a : action) (c : call) : list pobject :=
  combine (c_params c) (map snd (a_sig a)) ++ d_consts dom.

(** environment_snapshot.py:81-102 [create_triplet_snapshot] (predicates only). *)
Definition triplet_snapshot (dom : domain) (prev next : state) (c : call) : res (list literal * list literal) :=
  let* a := dict_lookup (d_actions dom) (c_name c) in
  let objs := parameterized_objects dom a c in
  Ok (discrete_state_snapshot dom prev objs, discrete_state_snapshot dom next objs).

(** environment_snapshot.py:104-130 [create_triplet_snapshot_for_universal_variables] (predicates only). *)
Definition triplet_snapshot_universal (dom : domain) (prev next : state) (c : call)
    (observation_objects : list pobject) (specific_types : list string) : list literal * list literal :=
  let params := c_params c ++ dict_keys (d_consts dom) in
  let all := dict_of (observation_objects ++ d_consts dom) in
  let relevant := filter (fun o => memb (fst o) params || memb (t_name (snd o)) specific_types) all in
  (discrete_state_snapshot dom prev relevant, discrete_state_snapshot dom next relevant).

(** matching_utils.py:9-19 [create_signature_permutations]. *)
Definition create_signature_permutations (call_parameters lifted_signature : list string) (subset_size : nat)
  : list (list (string * string)) :=
  perms subset_size (combine call_parameters lifted_signature).

(** matching_utils.py:22-28 [contains_duplicates]. *)
Definition contains_duplicates (l : list string) : bool :=
  negb (Nat.eqb (length (to_set l)) (length l)).

(** matching_utils.py:31-42 [extract_discrete_effects]. *)
Definition extract_discrete_effects (prev next : list literal) : list literal * list literal :=
  (to_set (map (copy_lit false) (filter l_pos (set_diff next prev))),
   to_set (map (copy_lit true) (filter l_pos (set_diff prev next)))).

(** matching_utils.py:45-51 [extract_not_effects]. *)
Definition extract_not_effects (next : list literal) : list literal :=
  to_set (map (copy_lit true) next).
