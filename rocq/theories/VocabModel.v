(** * Model of sam_learning/core/vocabulary_creator.py *)
From Verif Require Export Pddl.

(** vocabulary_creator.py:20-27 [choose_objects_subset]. *)
Definition choose_objects_subset {A} (array : list A) (subset_size : nat) : list (list A) :=
  perms subset_size array.

(** vocabulary_creator.py:36-59 [_validate_type_matching]. *)
Definition validate_type_matching (grounded lifted : signature) : bool :=
  if negb (Nat.eqb (length grounded) (length lifted)) then false
  else forallb (fun gl => is_sub_type (snd (fst gl)) (snd (snd gl))) (combine grounded lifted).

(** [vocabulary[key].add(x)] on a defaultdict(set) (vocabulary_creator.py:69, :91). *)
Definition dd_add {V} `{EqDec V} (d : list (string * list V)) (k : string) (v : V) : list (string * list V) :=
  dict_set d k (set_add v (match dict_get d k with Some s => s | None => [] end)).

(** vocabulary_creator.py:74-91: body of the inner loop of
    [create_grounded_predicate_vocabulary] for one permutation of objects. *)
Definition grounded_vocab_step (pname : string) (psig : signature)
    (voc : list (string * list literal)) (perm : list pobject) : list (string * list literal) :=
  let grounded_signature := dict_of perm in
  if validate_type_matching grounded_signature psig
  then dd_add voc pname (mkLit pname (dict_keys grounded_signature) true)
  else voc.

(** vocabulary_creator.py:62-93 [create_grounded_predicate_vocabulary]. *)
Definition grounded_predicate_vocabulary (dom : domain) (observed_objects : list pobject)
  : list (string * list literal) :=
  let objects_and_consts := observed_objects ++ d_consts dom in
  fold_left
    (fun voc p =>
       fold_left (grounded_vocab_step (fst p) (snd p))
                 (choose_objects_subset objects_and_consts (length (snd p))) voc)
    (d_preds dom) [].

(** vocabulary_creator.py:143-157: body of the inner loop of [create_lifted_vocabulary].
    [names.index(x)] / [types[...]] on the two parallel lists is the lookup of the first entry. *)
Definition lifted_vocab_step (params_and_consts : list pobject) (pname : string) (psig : signature)
    (must_be : option string) (voc : list literal) (perm : list string) : list literal :=
  let bounded := dict_of (flat_map (fun x => match dict_get params_and_consts x with
                                             | Some t => [(x, t)] | None => [] end) perm) in
  if negb (validate_type_matching bounded psig) then voc
  else if (match must_be with
           | Some m => negb (String.eqb m "") && negb (dict_mem m bounded)
           | None => false end) then voc
  else set_union voc [mkLit pname (dict_keys bounded) true; mkLit pname (dict_keys bounded) false].

(** vocabulary_creator.py:126-160 [create_lifted_vocabulary]. *)
Definition lifted_vocabulary (dom : domain) (possible_parameters : signature) (must_be : option string)
  : list literal :=
  let pc := possible_parameters ++ d_consts dom in
  fold_left
    (fun voc p =>
       fold_left (lifted_vocab_step pc (fst p) (snd p) must_be)
                 (choose_objects_subset (map fst pc) (length (snd p))) voc)
    (d_preds dom) [].

(** vocabulary_creator.py:113-121: one permutation in [create_lifted_functions_vocabulary];
    the vocabulary is a dict keyed by the untyped representation, modelled by
    the pair of function name and argument list. *)
Definition lifted_func_step (fname : string) (fsig : signature) (must_be : option string)
    (voc : list (string * list string)) (perm : list pobject) : list (string * list string) :=
  let bounded := dict_of perm in
  if negb (validate_type_matching bounded fsig)
     || (match must_be with
         | Some m => negb (String.eqb m "") && negb (dict_mem m bounded)
         | None => false end)
  then voc
  else set_add (fname, dict_keys bounded) voc.

(** vocabulary_creator.py:95-124 [create_lifted_functions_vocabulary]. *)
Definition lifted_functions_vocabulary (dom : domain) (possible_parameters : signature) (must_be : option string)
  : list (string * list string) :=
  fold_left
    (fun voc f =>
       fold_left (lifted_func_step (fst f) (snd f) must_be)
                 (choose_objects_subset (possible_parameters ++ d_consts dom) (length (snd f))) voc)
    (d_funcs dom) [].

(** vocabulary_creator.py:162-182 [create_grounded_actions_vocabulary]. *)
Definition grounded_actions_vocabulary (dom : domain) (observed_objects : list pobject) : list call :=
  let objects_and_consts := observed_objects ++ d_consts dom in
  fold_left
    (fun voc na =>
       let possible := map (fun pt => filter (fun o => is_sub_type (snd o) (snd pt)) objects_and_consts)
                           (a_sig (snd na)) in
       fold_left (fun voc opt => set_add (mkCall (fst na) (map fst opt)) voc) (prods possible) voc)
    (d_actions dom) [].
