(** * Model of sam_learning/core/predicates_matcher.py

    Lines 171-173 of that file do not parse in Python ([lifted_signature.keys()[]]).  They compute
    a local variable that is never used; the model is that of the file without them. *)
From Verif Require Export SnapshotModel.

(** predicates_matcher.py:24-37 [_extract_combinations_data]. *)
Definition extract_combinations_data (combination : list (string * string)) : list string * list string :=
  (map fst combination, map snd combination).

(** The keys of a dict display [{p: ... for p in l}]: duplicates collapse. *)
Definition sig_keys (l : list string) : list string := to_set l.

(** predicates_matcher.py:39-62 [_filter_out_impossible_combinations].
    Two grounded predicates with the same signature are equal iff name, polarity and objects are. *)
Definition filter_out_impossible (g : literal) (possible_matches : list literal) (grounded_params : list (list string))
  : list literal :=
  map fst (filter (fun mo => eqb (mkLit (l_name (fst mo)) (snd mo) (l_pos (fst mo))) g)
                  (combine possible_matches grounded_params)).

(** predicates_matcher.py:64-136 [match_predicate_to_action_literals].
    [extra] is the pair (extra_grounded_object, extra_lifted_object) when given. *)
Definition match_predicate (dom : domain) (g : literal) (c : call) (extra : option (string * string))
  : res (list literal) :=
  match l_args g with
  | [] => Ok [mkLit (l_name g) [] (l_pos g)]
  | _ =>
      let* a := dict_lookup (d_actions dom) (c_name c) in
      let constants_in_predicate := filter (fun o => dict_mem o (d_consts dom)) (l_args g) in
      let grounded_objects := c_params c ++ match extra with None => constants_in_predicate | Some (o, _) => [o] end in
      let lifted_params := dict_keys (a_sig a) ++ match extra with None => constants_in_predicate | Some (_, l) => [l] end in
      let permutations := create_signature_permutations grounded_objects lifted_params (length (l_args g)) in
      let candidates := filter (fun p => set_eqb (fst (extract_combinations_data p)) (l_args g)) permutations in
      let possible_matches :=
        map (fun p => mkLit (l_name g) (sig_keys (snd (extract_combinations_data p))) (l_pos g)) candidates in
      let grounded_base_params := map (fun p => fst (extract_combinations_data p)) candidates in
      Ok (filter_out_impossible g possible_matches grounded_base_params)
  end.

(** predicates_matcher.py:138-151 [get_injective_match]. *)
Definition get_injective_match (dom : domain) (g : literal) (c : call) : res (option literal) :=
  let* ms := match_predicate dom g c None in
  Ok (match ms with
      | [m] => Some (mkLit (l_name m) (l_args m) (l_pos g))
      | _ => None
      end).

(** predicates_matcher.py:153-183 [get_possible_literal_matches]; line 171 still looks the action up. *)
Definition possible_literal_matches (dom : domain) (c : call) (state_literals : list literal)
    (extra : option (string * string)) : res (list literal) :=
  let* _ := dict_lookup (d_actions dom) (c_name c) in
  fold_res
    (fun acc l =>
       let* ms := match extra with
                  | Some (o, _) => if memb o (l_args l) then match_predicate dom l c extra
                                   else match_predicate dom l c None
                  | None => match_predicate dom l c None
                  end in
       Ok (acc ++ ms))
    state_literals [].
