(** * Feature selection by breadth-first search

    Model of sam_learning/core/online_learning/bfs_feature_selection.py.  An observation is a one-row DataFrame with the default index. *)
From Verif Require Export Prelude.
Open Scope string_scope. Open Scope list_scope. Open Scope nat_scope.

Inductive value := VBool (b : bool) | VNum (z : Z).
#[global] Instance value_eq_dec : EqDec value.
Proof. intros x y. unfold EqDec in *. decide equality; [apply Bool.bool_dec|apply Z.eq_dec]. Defined.
Definition observation := (list (string * value) * bool)%type.
(** 24-32 *)
Record selector := mk_selector { open_list : list (list string); observations : option (list observation) }.
Definition bfs_init : selector := mk_selector [] None.

(** [sorted(l, key=len)] is stable. *)
Fixpoint insert_by_length (x : list string) (l : list (list string)) : list (list string) :=
  match l with [] => [x] | y :: l' => if length x <=? length y then x :: l else y :: insert_by_length x l' end.
Definition sorted_by_length (l : list (list string)) : list (list string) := fold_right insert_by_length [] l.
(** 57-67 *)
Definition initialize_open_list (monomials : list string) (s : selector) : selector :=
  mk_selector (sorted_by_length (flat_map (fun r => combs r monomials) (seq 0 (S (length monomials))))) (observations s).

(** 34-55: the columns whose value is True *)
Definition true_columns (columns : list string) (row : list (string * value)) : res (list string) :=
  let* marked := map_res (fun c => let* v := dict_lookup row c in Ok (c, Prelude.eqb v (VBool true))) columns in
  Ok (map fst (filter (fun cb => snd cb) marked)).
Fixpoint matching_row (columns : list string) (found : list string) (reference : list observation) : res bool :=
  match reference with
  | [] => Ok false
  | o :: reference =>
      let* t := true_columns columns (fst o) in
      if subsetb t found && snd o then Ok true else matching_row columns found reference
  end.
Definition find_matching_successful_transition_row (columns : list string) (reference : list observation) (row : list (string * value)) : res bool :=
  let* found := true_columns columns row in matching_row columns found reference.

Definition first_of (l : list (list string)) : res (list string) := match l with [] => Err IndexError | x :: _ => Ok x end.
(** [(stored == new).all(axis=1).any()] (84): pandas compares only frames with the same index and columns. *)
Definition pandas_compare (stored : list observation) (new : observation) : res bool :=
  match stored with
  | [o] => if Prelude.eqb (dict_keys (fst o)) (dict_keys (fst new)) then Ok (Prelude.eqb o new) else Err ValueError
  | _ => Err ValueError
  end.
(** The comparison of each row with the new one. *)
Definition rowwise_compare (stored : list observation) (new : observation) : res bool := Ok (memb new stored).

Section Selector.
Variable compare : list observation -> observation -> res bool.
(** 69-101 *)
Definition add_new_observation (predicates : list string) (s : selector) (o : observation) : selector * res (list string) :=
  match observations s with
  | None => (mk_selector (open_list s) (Some [o]), first_of (open_list s))
  | Some stored =>
      match compare stored o with
      | Err e => (s, Err e)
      | Ok true => (s, first_of (open_list s))
      | Ok false =>
          let s := mk_selector (open_list s) (Some (stored ++ [o])) in
          if negb (snd o) then
            match find_matching_successful_transition_row predicates stored (fst o) with
            | Err e => (s, Err e)
            | Ok true => match open_list s with [] => (s, Err IndexError) | _ :: l => (mk_selector l (observations s), first_of l) end
            | Ok false => (s, first_of (open_list s))
            end
          else (s, first_of (open_list s))
      end
  end.
(** The calls one after the other; the answers. *)
Fixpoint add_observations (predicates : list string) (s : selector) (os : list observation) : selector * list (res (list string)) :=
  match os with
  | [] => (s, [])
  | o :: os => let (s, r) := add_new_observation predicates s o in let (s, rs) := add_observations predicates s os in (s, r :: rs)
  end.
End Selector.
