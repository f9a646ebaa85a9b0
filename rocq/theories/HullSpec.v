(** * What the hull preconditions should say *)
From Verif Require Export HullModel NumSpec.
Open Scope string_scope. Open Scope list_scope. Open Scope nat_scope.

(** Every observation gives a value to each of the columns. *)
Definition over (cols : list text) (point : list (text * Q)) : Prop := NoDup (dict_keys point) /\ forall c, In c cols <-> In c (dict_keys point).
(** Column names are expressions; "(dummy)" is reserved. *)
Definition proper_columns (st : state) (cols : list text) : Prop := forall c, In c cols -> c <> dummy_text /\ exists x, denotes st c x.
(** The state in which the columns have the observed values. *)
Definition in_state (st : state) (point : list (text * Q)) : Prop := forall c v, dict_get point c = Some v -> denotes st c v.
(** [x] lies between two observed values of the column. *)
Definition between_observed (points : list (list (text * Q))) (f : text) (x : Q) : Prop :=
  (exists p v, In p points /\ dict_get p f = Some v /\ (v <= x)%Q) /\ (exists p v, In p points /\ dict_get p f = Some v /\ (x <= v)%Q).
Definition all_satisfied (st : state) (conditions : option (list text)) : Prop :=
  match conditions with Some l => forall t, In t l -> satisfied st t | None => True end.
(** The two sides of an inequality, up to a tolerance. *)
Definition satisfied_within (st : state) (t : text) (tolerance : Q) : Prop :=
  exists a b x y, parse t = Some (SNode [SSym "<="; a; b]) /\ eval st a = Some x /\ eval st b = Some y /\ (x <= y + tolerance)%Q.
Definition sum_abs (l : list Q) : Q := fold_right (fun x s => (Qabs x + s)%Q) 0%Q l.

(** Rows that differ pairwise. *)
Definition different (rows : list (list Q)) : Prop := ForallOrdPairs (fun a b => ~ Forall2 Qeq a b) rows.
(** Rows are the observations, in the order of the columns. *)
Definition stores (d : frame) (points : list (list (text * Q))) : Prop :=
  NoDup (f_cols d) /\ different (f_rows d) /\
  (forall r, In r (f_rows d) -> exists p, In p points /\ r = map (fun c => match dict_get p c with Some v => v | None => 0%Q end) (f_cols d)) /\
  (forall p, In p points -> exists r, In r (f_rows d) /\ Forall2 Qeq r (map (fun c => match dict_get p c with Some v => v | None => 0%Q end) (f_cols d))).

Section Oracles.
Variable unit : positive.
Definition rectangular (n : nat) (rows : list (list Q)) : Prop := forall r, In r rows -> length r = n.
(** A perfect score means that the equation holds in every row, with coefficients that need no rounding. *)
Definition exact_fit (fit : list (list Q) -> list Q -> list Q * Q * bool) : Prop :=
  forall n rows target c i, rectangular n rows -> length target = length rows -> fit rows target = (c, i, true) ->
    length c = n /\ Forall (clean unit) (c ++ [i]) /\ forall row y, In (row, y) (combine rows target) -> (linear row c + i == y)%Q.
(** The planes bound all the points; no plane is empty. *)
Definition bounds (points : list (list Q)) (a : list (list Q)) (b : list Q) : Prop :=
  length a = length b /\ forall n r beta, rectangular n points -> In (r, beta) (combine a b) ->
    length r = n /\ ~ Forall (fun c => c == 0)%Q r /\ forall p, In p points -> (linear p r <= beta)%Q.
Definition sound_hull (hull : list (list Q) -> option (list (list Q) * list Q)) : Prop :=
  forall points a b, hull points = Some (a, b) -> bounds points a b.
(** ... with numbers that need no rounding. *)
Definition exact_hull (hull : list (list Q) -> option (list (list Q) * list Q)) : Prop :=
  sound_hull hull /\ forall points a b, hull points = Some (a, b) -> Forall (Forall (clean unit)) a /\ Forall (clean unit) b.
(** The basis vectors are not zero and the points have exact coordinates in them; the other vectors are orthogonal to all the given ones; no rounding is needed. *)
Definition exact_basis (gram : list (list Q) -> list (list Q)) (complement : nat -> list (list Q) -> list (list Q)) : Prop :=
  forall n vectors, rectangular n vectors ->
    Forall (fun r => length r = n /\ ~ Forall (fun c => c == 0)%Q r /\ Forall (clean unit) r /\ forall v, In v vectors -> clean unit (linear v r)) (gram vectors) /\
    Forall (fun r => length r = n /\ ~ Forall (fun c => c == 0)%Q r /\ (forall c d, In c r -> In d r -> ~ (d == 0)%Q -> clean unit (c / d)) /\
                     forall v, In v vectors -> (linear v r == 0)%Q) (complement n (gram vectors)).
(** The numbers of the observations need no rounding. *)
Definition clean_data (d : frame) : Prop := Forall (Forall (clean unit)) (f_rows d).
End Oracles.
(** A table: columns are different expressions and each row has a value for each of them. *)
Definition table (d : frame) : Prop := NoDup (f_cols d) /\ rectangular (length (f_cols d)) (f_rows d) /\ ~ In dummy_text (f_cols d).
(** The state agrees with the row. *)
Definition row_state (st : state) (cols : list text) (row : list Q) : Prop := forall c v, In (c, v) (combine cols row) -> denotes st c v.

(** ** Convex hulls *)
(** The point is a weighted mean of the rows. *)
Definition in_hull (rows : list (list Q)) (x : list Q) : Prop :=
  exists ws, length ws = length rows /\ Forall (Qle 0) ws /\ (fold_right Qplus 0%Q ws == 1)%Q /\
    forall j, j < length x -> (nth j x 0 == linear (map (fun r => nth j r 0) rows) ws)%Q.
(** A point on the right side of all the planes is in the hull. *)
Definition complete_hull (hull : list (list Q) -> option (list (list Q) * list Q)) : Prop :=
  forall n points a b x, hull points = Some (a, b) -> rectangular n points -> length x = n ->
    (forall r beta, In (r, beta) (combine a b) -> (linear x r <= beta)%Q) -> in_hull points x.
(** The two families of vectors together span the space. *)
Definition complete_basis (gram : list (list Q) -> list (list Q)) (complement : nat -> list (list Q) -> list (list Q)) : Prop :=
  forall n vectors x, rectangular n vectors -> length x = n -> (forall r, In r (gram vectors) -> (linear x r == 0)%Q) ->
    (forall r, In r (complement n (gram vectors)) -> (linear x r == 0)%Q) -> Forall (fun c => c == 0)%Q x.
(** The values of the given columns. *)
Definition chosen (relevant : option (list text)) (cols : list text) (row : list Q) : list Q :=
  match relevant with
  | Some fs => map snd (filter (fun cv => memb (fst cv) fs) (combine cols row))
  | None => row
  end.
