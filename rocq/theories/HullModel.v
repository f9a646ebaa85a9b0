(** * Convex hull preconditions

    Model of sam_learning/core/numeric_learning/convex_hull_learner.py, and of numeric_utils.py 500-542.  Numbers are rationals.
    scikit-learn's regression, scipy's ConvexHull and the Gram-Schmidt process (it takes square roots) are parameters. *)
From Verif Require Export NumModel.
Open Scope string_scope. Open Scope list_scope. Open Scope nat_scope.

(** A DataFrame without missing values: column names and rows. *)
Record frame := mk_frame { f_cols : list text; f_rows : list (list Q) }.
Definition Qs_eqb (a b : list Q) : bool := (length a =? length b) && forallb (fun xy => Qeq_bool (fst xy) (snd xy)) (combine a b).
Definition get_col (cols : list text) (row : list Q) (c : text) : option Q := dict_get (combine cols row) c.
Definition restrict (cols : list text) (keep : list text) (row : list Q) : list Q :=
  map (fun c => match get_col cols row c with Some v => v | None => 0%Q end) keep.
Definition column (d : frame) (c : text) : list Q := map (fun r => match get_col (f_cols d) r c with Some v => v | None => 0%Q end) (f_rows d).
(** drop_duplicates: later rows that equal an earlier one are removed. *)
Fixpoint dedup (rows : list (list Q)) : list (list Q) :=
  match rows with [] => [] | r :: rows => r :: filter (fun s => negb (Qs_eqb r s)) (dedup rows) end.

(** 53-73.  A sample from an empty dictionary has no row, so concatenating it changes nothing.  Concatenating and dropping the columns
    with missing values leaves the common columns; a frame without columns has no duplicates. *)
Definition add_new_point (d : frame) (point : list (text * Q)) : frame :=
  match f_rows d, point with
  | [], [] => mk_frame [] []
  | [], _ => mk_frame (dict_keys point) [dict_vals point]
  | _, [] => d
  | _, _ =>
      let common := filter (fun c => memb c (dict_keys point)) (f_cols d) in
      let rows := map (restrict (f_cols d) common) (f_rows d) ++ [restrict (dict_keys point) common (dict_vals point)] in
      let unique := match common with [] => rows | _ => dedup rows end in
      if length unique =? length (f_rows d) then d else mk_frame common rows
  end.
Definition add_points (d : frame) (points : list (list (text * Q))) : frame := fold_left add_new_point points d.

Definition q_min (x : Q) (l : list Q) : Q := fold_left (fun a b => if Qle_bool a b then a else b) l x.
Definition q_max (x : Q) (l : list Q) : Q := fold_left (fun a b => if Qle_bool a b then b else a) l x.
Definition drop_columns (d : frame) (keep : text -> bool) : frame :=
  let cols := filter keep (f_cols d) in mk_frame cols (map (restrict (f_cols d) cols) (f_rows d)).

(** 210-224; the extrema of an empty column are NaN, which differs from itself *)
Definition construct_single_dimension_inequalities (f : text) (values : list Q) : list text :=
  match values with
  | [] => [form ">=" f [Sym "nan"]; form "<=" f [Sym "nan"]]
  | x :: l => let lo := q_min x l in let hi := q_max x l in
      if Qeq_bool lo hi then [form "=" f [Num lo]] else [form ">=" f [Num lo]; form "<=" f [Num hi]]
  end.

Section Hull.
Variable unit : positive.
(** Linear regression: coefficients, intercept, and whether the score is 1. *)
Variable fit : list (list Q) -> list Q -> list Q * Q * bool.
(** The planes [a x <= b] of the hull of the points; None when qhull fails. *)
Variable hull : list (list Q) -> option (list (list Q) * list Q).
(** The orthonormal basis of the vectors; the basis of the rest of the space, given the first one. *)
Variable gram : list (list Q) -> list (list Q).
Variable complement : nat -> list (list Q) -> list (list Q).

(** 167-176 *)
Definition construct_single_dimension_convex_hull (points : list Q) : list Q :=
  match points with [] => [] | x :: l => prettify_coefficients unit [(- q_min x l)%Q; q_max x l] end.

(** numeric_utils.py 509-511 *)
Definition constant_value (values : list Q) : option Q :=
  match values with [] => None | x :: l => if forallb (Qeq_bool x) l then Some x else None end.
(** numeric_utils.py 515-540: the columns removed so far and the conditions *)
Fixpoint dependency_loop (d : frame) (features : list text) (removed : list text) (conditions : list text) : list text * list text :=
  match features with
  | [] => (removed, conditions)
  | f :: features =>
      let others := filter (fun c => negb (Prelude.eqb c f) && negb (memb c removed)) (f_cols d) in
      match others with
      | [] => (removed, conditions)
      | _ =>
          let '(coef, intercept, one) := fit (map (restrict (f_cols d) others) (f_rows d)) (column d f) in
          if negb one then dependency_loop d features removed conditions
          else
            let coefficients := prettify_coefficients unit (coef ++ [intercept]) in
            if forallb (fun c => Qeq_bool c 0) coefficients then dependency_loop d features (removed ++ [f]) (conditions ++ [form "=" f [Num 0]])
            else dependency_loop d features (removed ++ [f])
                   (conditions ++ [form "=" f (construct_linear_equation_string (construct_multiplication_strings unit coefficients (others ++ [dummy_text])))])
      end
  end.
(** numeric_utils.py 500-542; None for the empty frame *)
Definition remove_complex_linear_dependencies (d : frame) : option frame * list text :=
  if (length (f_rows d) =? 0) || (length (f_cols d) =? 1) then (Some d, [])
  else
    let constants := flat_map (fun c => match constant_value (column d c) with Some v => [(c, v)] | None => [] end) (f_cols d) in
    let conditions := map (fun cv => form "=" (fst cv) [Num (snd cv)]) constants in
    if length (f_cols d) =? length constants then (None, conditions)
    else
      let (removed, conditions) := dependency_loop d (filter (fun c => negb (memb c (map fst constants))) (f_cols d)) (map fst constants) conditions in
      (Some (drop_columns d (fun c => negb (memb c removed))), conditions).

(** 109-124 *)
Definition execute_convex_hull (points : list (list Q)) : res (list (list Q) * list Q) :=
  match hull points with
  | Some (a, b) => Ok (map (prettify_coefficients unit) a, prettify_coefficients unit b)
  | None => Err NotSafeError
  end.
Definition dot_row (a b : list Q) : Q := fold_left Qplus (map (fun xy => (fst xy * snd xy)%Q) (combine a b)) 0%Q.
Definition identity_matrix (n : nat) : list (list Q) := map (fun i => map (fun j => if i =? j then 1%Q else 0%Q) (seq 0 n)) (seq 0 n).
(** 126-165, with the strings built at 260.  A point set without a basis raises ValueError, caught at 266. *)
Definition convex_hull_conditions (d : frame) (extra : list text) : res (list text) :=
  let n := length (f_cols d) in
  let shift := hd [] (f_rows d) in
  let shifted := map (fun p => map (fun xy => (fst xy - snd xy)%Q) (combine p shift)) (f_rows d) in
  let basis := gram shifted in
  if (n <? length shifted) && (n <=? length basis) then
    let* (a, b) := execute_convex_hull (f_rows d) in
    Ok (construct_pddl_inequality_scheme unit a b (f_cols d) "<=" ++ extra)
  else
    let projected := map (fun p => map (dot_row p) basis) shifted in
    let* (a, b) := match basis with
                   | [] => Err NotSafeError
                   | [_] => Ok ([[(-1)%Q]; [1%Q]], construct_single_dimension_convex_hull (map (fun p => hd 0%Q p) projected))
                   | _ => execute_convex_hull projected
                   end in
    let variables := construct_projected_variable_strings unit (f_cols d) shift basis in
    let* span := divide_span_by_common_denominator (complement n basis) in
    let centred := construct_projected_variable_strings unit (f_cols d) shift (identity_matrix n) in
    Ok (construct_pddl_inequality_scheme unit a b variables "<=" ++ extra ++
        construct_pddl_inequality_scheme unit span (map (fun _ => 0%Q) span) centred "=").

(** 226-274; None is "no precondition" (numeric_utils.py 267-268) *)
Definition conditions_or_none (l : list text) : option (list text) := match l with [] => None | _ => Some l end.
Definition construct_safe_linear_inequalities (data : frame) (relevant : option (list text)) : res (option (list text)) :=
  let d := match relevant with Some fs => drop_columns data (fun c => memb c fs) | None => data end in
  if (match relevant with Some [_] => true | _ => false end) || (length (f_cols d) =? 1) then
    match (match relevant with Some fs => fs | None => f_cols d end) with
    | [] => Err IndexError
    | f :: _ => if memb f (f_cols d) then Ok (Some (construct_single_dimension_inequalities f (column d f))) else Err KeyError
    end
  else
    match remove_complex_linear_dependencies d with
    | (None, extra) => Ok (conditions_or_none extra)
    | (Some filtered, extra) =>
        if length (f_rows filtered) =? 0 then Ok (conditions_or_none extra)
        else match f_cols filtered with
             | [f] => let b := construct_single_dimension_convex_hull (column filtered f) in
                      Ok (conditions_or_none (construct_pddl_inequality_scheme unit [[(-1)%Q]; [1%Q]] b [f] "<=" ++ extra))
             | _ => let* l := convex_hull_conditions filtered extra in Ok (conditions_or_none l)
             end
    end.
End Hull.
