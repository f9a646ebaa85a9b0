(** * Separating planes

    Model of sam_learning/core/online_learning/incremental_svm_learner.py.  The classifier of scikit-learn is a parameter; distances
    are compared by their squares. *)
From Verif Require Export NumModel HullModel.
Open Scope string_scope. Open Scope list_scope. Open Scope nat_scope.

(** The labelled table (91): column names in order, None for the label; a row gives the values it has and whether it was successful. *)
Record svm_data := mk_svm { sv_cols : list (option text); sv_rows : list (list (text * Q) * bool) }.
(** 82-95 *)
Definition svm_init (monomials : list (list text)) : svm_data := mk_svm (map (fun m => Some (create_polynomial_string m)) monomials ++ [None]) [].
Definition has_value (c : text) (row : list (text * Q) * bool) : bool := memb c (dict_keys (fst row)).
(** 97-110.  Concatenating appends the columns that the table does not have; a successful point drops the columns with missing values. *)
Definition svm_add_point (monomials : list (list text)) (d : svm_data) (fluents : list (text * Q)) (is_successful : bool) : svm_data :=
  let sample := create_grounded_monomials monomials fluents in
  let cols := sv_cols d ++ map Some (filter (fun c => negb (memb (Some c) (sv_cols d))) (dict_keys sample)) in
  let rows := sv_rows d ++ [(sample, is_successful)] in
  if is_successful then
    let kept := filter (fun c => match c with Some t => forallb (has_value t) rows | None => true end) cols in
    mk_svm kept (map (fun r => (filter (fun kv => memb (Some (fst kv)) kept) (fst r), snd r)) rows)
  else mk_svm cols rows.

(** 121: the columns without missing values and without the label *)
Definition features (d : svm_data) : list text :=
  flat_map (fun c => match c with Some t => if forallb (has_value t) (sv_rows d) then [t] else [] | None => [] end) (sv_cols d).
Definition samples (d : svm_data) : list (list Q * bool) :=
  map (fun r => (map (fun c => match dict_get (fst r) c with Some v => v | None => 0%Q end) (features d), snd r)) (sv_rows d).

Definition square_distance (a b : list Q) : Q := fold_right (fun xy s => ((fst xy - snd xy) * (fst xy - snd xy) + s)%Q) 0%Q (combine a b).
(** The first smallest entry. *)
Fixpoint argmin (l : list (Q * nat)) (best : Q * nat) : nat :=
  match l with [] => snd best | x :: l => argmin l (if Qltb (fst x) (fst best) then x else best) end.
(** 129-137: the position of the negative point that is closest to a positive one *)
Definition closest_negative (points : list (list Q * bool)) : nat :=
  let negatives := filter (fun kp => negb (snd (snd kp))) (combine (seq 0 (length points)) points) in
  let positives := filter (fun p => snd p) points in
  let distances := flat_map (fun p => map (fun kq => (square_distance (fst p) (fst (snd kq)), fst kq)) negatives) positives in
  match distances with [] => 0 | x :: l => argmin l x end.

Section Svm.
Variable unit : positive.
(** Weights and intercept of the classifier for labelled points. *)
Variable svm : list (list Q * bool) -> list Q * Q.
(** MAX_ALLOWED_CONDITIONS *)
Variable limit : nat.

(** The prediction is negative when the decision value is not positive. *)
Definition predicts_negative (plane : list Q * Q) (x : list Q) : bool := Qle_bool (dot_row x (fst plane) + snd plane) 0.
(** 139-145: all the positive points and the closest negative one *)
Definition with_closest (points : list (list Q * bool)) : list (list Q * bool) :=
  map snd (filter (fun kp => snd (snd kp) || (fst kp =? closest_negative points)) (combine (seq 0 (length points)) points)).
(** A plane: coefficients, border point, and the predictions for all the samples. *)
Record plane := mk_plane { pl_coefficients : list Q; pl_border : Q; pl_negative : list bool }.
(** 124-188 *)
Fixpoint planes_loop (fuel : nat) (all points : list (list Q * bool)) : list plane :=
  match fuel with
  | 0 => []
  | S fuel =>
      if forallb (fun p => snd p) points || forallb (fun p => negb (snd p)) points then []
      else
        let model := svm (with_closest points) in
        let correct p := negb (snd p) && predicts_negative model (fst p) in
        if existsb correct points then
          mk_plane (prettify_coefficients unit (fst model)) (round unit (if Qltb (EPSILON unit) (Qabs (- snd model)) then (- snd model)%Q else 0%Q))
                   (map (fun p => predicts_negative model (fst p)) all)
            :: planes_loop fuel all (filter (fun p => negb (correct p)) points)
        else planes_loop fuel all (map snd (filter (fun kp => negb (fst kp =? closest_negative points)) (combine (seq 0 (length points)) points)))
  end.
(** 190-206: a plane is dropped when a later one excludes all its points *)
Definition superset (later earlier : list bool) : bool := forallb (fun ab => fst ab || negb (snd ab)) (combine later earlier).
Fixpoint filter_planes (planes : list plane) : list plane :=
  match planes with
  | [] => []
  | p :: planes => if existsb (fun q => superset (pl_negative q) (pl_negative p)) planes then filter_planes planes else p :: filter_planes planes
  end.
(** 215-249.  Without features the classifier refuses to be trained.  The coefficients are paired with all the columns of the table,
    the label included. *)
Definition header (c : option text) : text := match c with Some t => t | None => [Sym "label"] end.
Definition construct_linear_inequalities (d : svm_data) : res (list text) :=
  match sv_rows d with
  | [] => Ok []
  | _ =>
      let points := samples d in
      match features d with
      | [] => if forallb (fun p => snd p) points || forallb (fun p => negb (snd p)) points then Ok [] else Err NotSafeError
      | _ =>
          Ok (map (fun p => form ">=" (construct_linear_equation_string (construct_multiplication_strings unit (pl_coefficients p) (map header (sv_cols d)))) [Num (pl_border p)])
                  (filter_planes (planes_loop limit points points)))
      end
  end.
End Svm.
