(** * Numeric effects

    Model of sam_learning/core/numeric_learning/linear_regression_learner.py and of numeric_utils.py 26-36, 167-254.  Numbers are
    rationals; scikit-learn's regression and sympy's rank are parameters.  A table has no missing values. *)
From Verif Require Export HullModel.
Open Scope string_scope. Open Scope list_scope. Open Scope nat_scope.

(** The observations before and after the action (35-44). *)
Record learner := mk_learner { l_functions : list text; l_prev : frame; l_next : frame }.
(** pd.concat followed by dropping the columns with missing values; a sample without columns that comes from an empty dictionary
    has no row. *)
Definition concat_sample (d sample : frame) : frame :=
  match f_rows sample with
  | [] => d
  | _ => let common := filter (fun c => memb c (f_cols sample)) (f_cols d) in
         mk_frame common (map (restrict (f_cols d) common) (f_rows d) ++ map (restrict (f_cols sample) common) (f_rows sample))
  end.
Definition is_empty (d : frame) : bool := match f_cols d, f_rows d with [], _ | _, [] => true | _, _ => false end.
(** 257-282 *)
Definition add_new_observation (l : learner) (state_data : list (text * Q)) (store_in_prev_state : bool) : learner :=
  let sample := match state_data with [] => mk_frame [] [] | _ => mk_frame (dict_keys state_data) [dict_vals state_data] end in
  let sample := if store_in_prev_state then sample else drop_columns sample (fun c => memb c (l_functions l)) in
  let update d := if is_empty d then sample else concat_sample d sample in
  if store_in_prev_state then mk_learner (l_functions l) (update (l_prev l)) (l_next l)
  else mk_learner (l_functions l) (l_prev l) (update (l_next l)).

(** numeric_utils.py 167-182: the first ratio whose distance from zero is over the threshold *)
Section Reg.
Variable unit : positive.
(** Ten digits, for the scale factor (137). *)
Variable fine : positive.
(** Coefficients, intercept, and whether the score is 1. *)
Variable fit : list (list Q) -> list Q -> list Q * Q * bool.
(** The rank of a matrix. *)
Variable rank : list (list Q) -> nat.

Definition extract_numeric_linear_coefficient (values1 values2 : list Q) : Q :=
  let ratios := map (fun xy => (fst xy / (if Qeq_bool (snd xy) 0 then 1 # 1000000000 else snd xy))%Q) (combine values1 values2) in
  let coefficient := match find (fun v => Qltb (1 # 100) (Qabs v)) ratios with Some v => v | None => 0%Q end in
  prettify_floating_point_number unit (round unit coefficient).
(** The reduced form of two columns is not diagonal: all their minors vanish. *)
Definition proportional (xs ys : list Q) : bool :=
  let rows := combine xs ys in
  forallb (fun r => forallb (fun s => Qeq_bool (fst r * snd s) (fst s * snd r)) rows) rows.
Definition is_constant (d : frame) (c : text) : bool := match constant_value (column d c) with Some _ => true | None => false end.
(** numeric_utils.py 215-254 *)
Definition detect_linear_dependent_features (d : frame) : frame * list text :=
  if length (f_rows d) <? 2 then (d, [])
  else
    let columns := filter (fun c => negb (is_constant d c)) (f_cols d) in
    let found := flat_map (fun cc => let '(independent, dependent) := cc in
        if proportional (column d independent) (column d dependent) then
          let k := extract_numeric_linear_coefficient (column d dependent) (column d independent) in
          if Qeq_bool k 0 then [] else [(dependent, form "=" dependent (form "*" [Num k] independent))]
        else []) (pairs2 columns) in
    (drop_columns d (fun c => negb (memb c (map fst found))), map snd found).
(** numeric_utils.py 185-212, for more than one row.  When no column varies (or there is none) the result is an empty table; its
    conditions are never used since the table is then not safe to learn from. *)
Definition filter_constant_features (d : frame) : frame * list text :=
  let constants := flat_map (fun c => match constant_value (column d c) with Some v => [(c, v)] | None => [] end) (f_cols d) in
  if length (f_cols d) =? length constants then (mk_frame [] [], [])
  else (drop_columns d (fun c => negb (memb c (map fst constants))), map (fun cv => form "=" (fst cv) [Num (snd cv)]) constants).

(** 64-83 and numeric_utils.py 26-36 *)
Definition validate_legal_equations (d : frame) : bool :=
  if length (f_rows d) =? 1 then false
  else length (f_cols d) + 1 <=? rank (map (fun r => r ++ [1%Q]) (f_rows d)).
(** 85-112.  scikit-learn refuses a matrix without features. *)
Definition solve_regression_problem (d : frame) (label : list Q) (allow_unsafe : bool) : res (list Q) :=
  match f_cols d with
  | [] => Err ValueError
  | _ => let '(coef, intercept, one) := fit (f_rows d) label in
         if negb one && negb allow_unsafe then Err NotSafeError else Ok (prettify_coefficients unit (coef ++ [intercept]))
  end.
(** 114-139.  The position of the column "label" is that of the intercept. *)
Definition calculate_scale_factor (coefficients : list Q) (columns : list text) (lifted : text) : option Q :=
  let named := combine columns coefficients in
  match dict_get named lifted with
  | Some c => if negb (Qeq_bool c 0) && forallb (fun fc => Prelude.eqb (fst fc) lifted || Qeq_bool (snd fc) 0) named
                 && Qeq_bool (nth (length columns) coefficients 0%Q) 0
              then Some (round fine c) else None
  | None => None
  end.
(** 141-159; the last row when no value changes *)
Fixpoint extract_non_zero_change (rows : list (Q * Q)) (last : Q * Q) : Q * Q :=
  match rows with
  | [] => last
  | (previous, next) :: rows => if Qeq_bool previous next then extract_non_zero_change rows (next, previous) else (next, previous)
  end.
(** 161-207 *)
Definition solve_linear_equations (lifted : text) (d : frame) (label : list Q) (allow_unsafe : bool) : res (option text) :=
  let* coefficients := solve_regression_problem d label allow_unsafe in
  match forallb (fun c => Qeq_bool c 0) coefficients, constant_value label with
  | true, Some v => Ok (Some (form "assign" lifted [Num v]))
  | _, _ =>
      let names := f_cols d ++ [dummy_text] in
      match calculate_scale_factor coefficients (f_cols d) lifted with
      | Some factor =>
          if Qeq_bool factor 1 then Ok None
          else Ok (Some (form (if Qltb 1 factor then "scale-up" else "scale-down") lifted [Num factor]))
      | None =>
          match dict_get (combine (f_cols d) coefficients) lifted with
          | Some c =>
              if Qeq_bool c 0 then
                match construct_multiplication_strings unit coefficients names with
                | [] => Ok None
                | parts => Ok (Some (form "assign" lifted (construct_linear_equation_string parts)))
                end
              else
                let (next, previous) := extract_non_zero_change (combine (column d lifted) label) (0%Q, 0%Q) in
                let* t := construct_non_circular_assignment unit lifted (dict_of (combine names coefficients)) previous next in
                Ok (Some t)
          | None =>
              match construct_multiplication_strings unit coefficients names with
              | [] => Ok None
              | parts => Ok (Some (form "assign" lifted (construct_linear_equation_string parts)))
              end
          end
      end
  end.

(** 46-62: the tables after keeping the relevant fluents, and the different pairs of rows.  Tables of different lengths give missing
    values, which the regression refuses; when no fluent of the action is bound, a row without values remains after the action and
    there is nothing to learn. *)
Definition keep_relevant (l : learner) (relevant : option (list text)) : learner :=
  match relevant with
  | Some fs => mk_learner (l_functions l) (drop_columns (l_prev l) (fun c => memb c fs)) (drop_columns (l_next l) (fun c => memb c fs))
  | None => l
  end.
Definition pair_eqb (a b : list Q * list Q) : bool := Qs_eqb (fst a) (fst b) && Qs_eqb (snd a) (snd b).
Fixpoint dedup_pairs (rows : list (list Q * list Q)) : list (list Q * list Q) :=
  match rows with [] => [] | r :: rows => r :: filter (fun s => negb (pair_eqb r s)) (dedup_pairs rows) end.
(** 235-255 *)
Definition construct_effect_from_single_sample (l : learner) : list text :=
  match f_rows (l_prev l), f_rows (l_next l) with
  | p :: _, n :: _ =>
      flat_map (fun f => match get_col (f_cols (l_next l)) n f with
                         | None => []
                         | Some v => match get_col (f_cols (l_prev l)) p f with
                                     | Some u => if Qeq_bool u v then [] else [form "assign" f [Num v]]
                                     | None => [form "assign" f [Num v]]
                                     end
                         end) (f_cols (l_next l))
  | _, _ => []
  end.
(** 317-334, for one fluent of the next state *)
Definition fluent_effect (l : learner) (features : frame) (rows : list (list Q * list Q)) (allow_unsafe : bool) (f : text) : res (list text) :=
  if negb (memb f (f_cols (l_prev l))) then Err KeyError
  else if Qs_eqb (column (l_prev l) f) (column (l_next l) f) then Ok []
  else let* statement := solve_linear_equations f features (column (mk_frame (f_cols (l_next l)) (map snd rows)) f) allow_unsafe in
       Ok (match statement with Some t => [t] | None => [] end).
(** 284-345: the learner afterwards, the effects, the additional conditions, and whether the model is exact *)
Definition construct_assignment_equations (l : learner) (allow_unsafe : bool) (relevant : option (list text)) :
  res (learner * list text * option (list text) * bool) :=
  match relevant with
  | Some [] => Ok (l, [], None, false)
  | _ =>
      match f_rows (l_next l) with
      | [] => Ok (l, [], None, false)
      | _ =>
          let l := keep_relevant l relevant in
          if negb (length (f_rows (l_prev l)) =? length (f_rows (l_next l))) then (match f_rows (l_prev l), f_cols (l_next l) with [], [] => Ok (l, [], None, false) | _, _ => Err ValueError end)
          else
            let rows := dedup_pairs (combine (f_rows (l_prev l)) (f_rows (l_next l))) in
            match rows with
            | [_] => Ok (l, construct_effect_from_single_sample l, None, false)
            | _ =>
                let (filtered, constants) := filter_constant_features (mk_frame (f_cols (l_prev l)) (map fst rows)) in
                let (features, dependencies) := detect_linear_dependent_features filtered in
                let safe := validate_legal_equations features in
                let* statements := map_res (fluent_effect l features rows allow_unsafe) (f_cols (l_next l)) in
                Ok (l, concat statements, if safe then conditions_or_none (dependencies ++ constants) else None, safe)
            end
      end
  end.
End Reg.
