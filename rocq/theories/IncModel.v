(** * The incremental convex hull learner

    Model of sam_learning/core/online_learning/incremental_convex_hull_learner.py.  Numbers are rationals.  scikit-learn's regression, scipy's
    ConvexHull and the extended Gram-Schmidt process (it takes square roots) are parameters; plots and logging are left out.  A learner after an
    exception is not modelled. *)
From Verif Require Export HullModel.
Open Scope string_scope. Open Scope list_scope. Open Scope nat_scope.

(** 34-41.  [DataFrame()] is the frame without columns and rows; [i_ind] is None before the first calculation. *)
Record inc := mk_inc {
  i_relevant : list text;                           (* relevant_fluents *)
  i_data : frame;                                   (* data *)
  i_ind : option frame;                             (* affine_independent_data *)
  i_conds : list text;                              (* additional_dependency_conditions *)
  i_base : option (list (list Q));                  (* _gsp_base *)
  i_comp : option (list (list Q));                  (* _complementary_base *)
  i_standard : bool;                                (* _spanning_standard_base *)
  i_hull : option (list (list Q) * list Q) }.       (* _convex_hull: the planes [a x <= b] *)
(** 44-70; [cols] are the strings of the monomials *)
Definition new_learner (cols : list text) (relevant : option (list text)) : inc :=
  mk_inc (match relevant with Some fs => fs | None => cols end) (mk_frame cols []) None [] None None false None.

(** 186-188: concatenating and dropping the columns with missing values.  A sample without entries has no row. *)
Definition concat_point (d : frame) (point : list (text * Q)) : frame :=
  match point with
  | [] => d
  | _ =>
      let keys := dict_keys point in
      let common := filter (fun c => memb c keys) (f_cols d) in
      let cols := match f_rows d with [] => common ++ filter (fun k => negb (memb k (f_cols d))) keys | _ => common end in
      mk_frame cols (map (restrict (f_cols d) cols) (f_rows d) ++ [restrict keys cols (dict_vals point)])
  end.
(** 189: [duplicated().any()]; a frame without columns has no duplicates *)
Definition has_duplicates (d : frame) : bool :=
  match f_cols d with [] => false | _ => negb (length (dedup (f_rows d)) =? length (f_rows d)) end.
Definition subtract (p q : list Q) : list Q := map (fun xy => (fst xy - snd xy)%Q) (combine p q).
Definition first_row (d : frame) : list Q := hd [] (f_rows d).
Definition is_empty {A} (l : list A) : bool := match l with [] => true | _ => false end.

Section Learner.
Variable unit : positive.
Variable fit : list (list Q) -> list Q -> list Q * Q * bool.
Variable hull : list (list Q) -> option (list (list Q) * list Q).
(** numeric_utils.py extended_gram_schmidt: input vectors and the vectors that are given *)
Variable schmidt : list (list Q) -> list (list Q) -> list (list Q).

(** 95-108 *)
Definition shift_new_point (standard : bool) (ind : frame) (point : list Q) : list Q :=
  match point with
  | [x] => [(x - hd 0%Q (first_row ind))%Q]
  | _ => if standard then point else subtract point (first_row ind)
  end.
(** 110-120 *)
Definition is_spanned_in_base (standard : bool) (ind : frame) (base : list (list Q)) (point : list Q) : bool :=
  let shifted := shift_new_point standard ind point in
  match base with
  | b :: _ => (length shifted =? length b) && is_empty (schmidt [shifted] base)
  | [] => is_empty (schmidt [shifted] base)
  end.
(** 72-93, 122-134 *)
Definition learn_new_bases (st : inc) (ind : frame) : res inc :=
  let n := length (f_cols ind) in
  let base := schmidt (map (fun p => subtract p (first_row ind)) (f_rows ind)) [] in
  let* comp := divide_span_by_common_denominator (schmidt (identity_matrix n) base) in
  let standard := (1 <? length base) && (length base =? n) in
  Ok (mk_inc (i_relevant st) (i_data st) (i_ind st) (i_conds st) (Some (if standard then identity_matrix n else base)) (Some comp)
             (standard || i_standard st) (i_hull st)).
(** 136-145; qhull's error is a RuntimeError *)
Definition learn_new_convex_hull (st : inc) (ind : frame) : res inc :=
  match i_base st with
  | None => Err ValueError
  | Some base =>
      let shift := if i_standard st then map (fun _ => 0%Q) (f_cols ind) else first_row ind in
      match hull (map (fun p => map (dot_row (subtract p shift)) base) (f_rows ind)) with
      | None => Err RuntimeError
      | Some h => Ok (mk_inc (i_relevant st) (i_data st) (i_ind st) (i_conds st) (i_base st) (i_comp st) (i_standard st) (Some h))
      end
  end.
Definition base_length (st : inc) : nat := match i_base st with Some b => length b | None => 0 end.
(** 147-176 *)
Definition calculate_basis_and_hull (st : inc) (from_reset : bool) : res inc :=
  let prev_conditions := i_conds st in
  let (ind, conds) := match remove_complex_linear_dependencies unit fit (drop_columns (i_data st) (fun c => memb c (i_relevant st))) with
                      | (Some ind, conds) => (ind, conds)
                      | (None, conds) => (mk_frame [] [], conds)
                      end in
  let st1 := mk_inc (i_relevant st) (i_data st) (Some ind) conds (i_base st) (i_comp st) (i_standard st) (i_hull st) in
  if is_empty (f_rows ind) || is_empty (f_cols ind) then Ok st1
  else
    match i_base st with
    | Some base =>
        if negb (Prelude.eqb prev_conditions conds) || from_reset then
          let* st2 := learn_new_bases st1 ind in
          if (2 <=? base_length st2) && (3 <=? length (f_rows (i_data st))) then learn_new_convex_hull st2 ind else Ok st2
        else
          let* st2 := if is_spanned_in_base (i_standard st) ind base (last (f_rows ind) []) then Ok st1 else learn_new_bases st1 ind in
          if base_length st2 <=? 1 then Ok st2 else learn_new_convex_hull st2 ind
    | None =>
        let* st2 := learn_new_bases st1 ind in
        if (2 <=? base_length st2) && (3 <=? length (f_rows (i_data st))) then learn_new_convex_hull st2 ind else Ok st2
    end.
(** 178-194 *)
Definition add_new_point (st : inc) (point : list (text * Q)) : res inc :=
  let d := concat_point (i_data st) point in
  if has_duplicates d then Ok st
  else calculate_basis_and_hull (mk_inc (i_relevant st) d (i_ind st) (i_conds st) (i_base st) (i_comp st) (i_standard st) (i_hull st)) false.
(** 357-366; closing a hull that is None raises AttributeError *)
Definition reset (st : inc) (relevant : list text) : res inc :=
  match i_hull st with
  | None => Err AttributeError
  | Some _ => calculate_basis_and_hull (mk_inc relevant (i_data st) (i_ind st) (i_conds st) (i_base st) (i_comp st) (i_standard st) None) true
  end.
(** 368-394.  [cols] are the columns of a new learner. *)
Definition copy (cols : list text) (st : inc) : res inc :=
  if is_empty (f_rows (i_data st)) || is_empty (f_cols (i_data st)) then Ok (new_learner cols (Some (i_relevant st)))
  else match i_ind st with
       | None => Err AttributeError
       | Some ind =>
           let st' := mk_inc (i_relevant st) (i_data st) (Some ind) (i_conds st) (i_base st) (i_comp st) (i_standard st) None in
           match i_hull st with Some _ => learn_new_convex_hull st' ind | None => Ok st' end
       end.

(** 196-208 *)
Definition create_ch_coefficients_data (st : inc) : res (list (list Q) * list Q) :=
  match i_hull st with
  | Some (a, b) => Ok (map (prettify_coefficients unit) a, prettify_coefficients unit b)
  | None => Err AttributeError
  end.
(** 210-255, with the strings built at 277-291.  An empty basis raises ValueError, caught at 293. *)
Definition incremental_conditions (st : inc) (ind : frame) : res (list text) :=
  let n := length (f_cols ind) in
  match i_base st with
  | None => Err NotSafeError
  | Some base =>
      if (1 <? length base) && (length base =? n) then
        let* (a, b) := create_ch_coefficients_data st in
        Ok (construct_pddl_inequality_scheme unit a b (f_cols ind) "<=" ++ i_conds st)
      else match base with
      | [] => Err NotSafeError
      | _ =>
          let projected := map (fun p => map (dot_row (subtract p (first_row ind))) base) (f_rows ind) in
          let* (a, b) := match i_hull st with
                         | None => Ok ([[(-1)%Q]; [1%Q]], construct_single_dimension_convex_hull unit (concat projected))
                         | Some _ => create_ch_coefficients_data st
                         end in
          let variables := construct_projected_variable_strings unit (f_cols ind) (first_row ind) base in
          let centred := construct_projected_variable_strings unit (f_cols ind) (first_row ind) (identity_matrix n) in
          let span := match i_comp st with Some c => c | None => [] end in
          Ok (construct_pddl_inequality_scheme unit a b variables "<=" ++
              construct_pddl_inequality_scheme unit span (map (fun _ => 0%Q) span) centred "=" ++ i_conds st)
      end
  end.
(** 257-302; the arguments of the call are ignored; None is "no precondition" (numeric_utils.py 267-268) *)
Definition construct_safe (st : inc) : res (option (list text)) :=
  if is_empty (f_rows (i_data st)) || is_empty (i_relevant st) then Ok (Some [])
  else if (length (f_cols (i_data st)) =? 1) || (length (i_relevant st) =? 1) then
    match f_cols (i_data st) with
    | [] => Err IndexError
    | f :: _ => Ok (Some (construct_single_dimension_inequalities f (column (i_data st) f)))
    end
  else match i_ind st with
       | None => Err TypeError
       | Some ind =>
           if is_empty (f_rows ind) then Ok (conditions_or_none (i_conds st))
           else let* l := incremental_conditions st ind in Ok (conditions_or_none l)
       end.

(** 304-355 *)
Definition is_point_in_convex_hull (st : inc) (point : list (text * Q)) : res bool :=
  let cols := f_cols (i_data st) in
  let keys := dict_keys point in
  let entry := fun cs => restrict keys cs (dict_vals point) in
  if existsb (fun c => negb (memb c keys)) cols then Ok false
  else if negb (is_empty cols) && forallb (fun k => memb k cols) keys && existsb (Qs_eqb (entry cols)) (f_rows (i_data st)) then Ok true
  else match i_base st, i_ind st with
       | None, _ => Ok false
       | _, None => Err AttributeError
       | Some base, Some ind =>
           let new_entry := entry (f_cols ind) in
           if negb (is_spanned_in_base (i_standard st) ind base new_entry) then Ok false
           else
             let shifted := shift_new_point (i_standard st) ind new_entry in
             let projected := map (dot_row shifted) base in
             let comp := match i_comp st with Some c => c | None => [] end in
             if existsb (fun r => Qltb (EPSILON unit) (Qabs (dot_row r shifted))) comp then Ok false
             else match projected with
                  | [] => Err ValueError
                  | [x] => let values := concat (map (fun p => map (dot_row (subtract p (first_row ind))) base) (f_rows ind)) in
                           match values with
                           | [] => Err ValueError
                           | v :: vs => Ok (Qle_bool (q_min v vs) x && Qle_bool x (q_max v vs))
                           end
                  | _ => match i_hull st with
                         | None => Err AttributeError
                         | Some (a, b) => Ok (forallb (fun rb => Qle_bool (dot_row (fst rb) projected - snd rb) (EPSILON unit)) (combine a b))
                         end
                  end
       end.

(** Operations of a user. *)
Inductive op := AddPoint (point : list (text * Q)) | ResetTo (relevant : list text).
Definition step (st : inc) (o : op) : res inc := match o with AddPoint p => add_new_point st p | ResetTo fs => reset st fs end.
Definition run (cols : list text) (ops : list op) : res inc := fold_left (fun s o => let* st := s in step st o) ops (Ok (new_learner cols None)).
End Learner.
