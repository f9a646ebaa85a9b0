(** * What the incremental hull learner should say *)
From Verif Require Export IncModel HullSpec.
Open Scope string_scope. Open Scope list_scope. Open Scope nat_scope.

(** ** The operations *)
Definition points_of (ops : list op) : list (list (text * Q)) := flat_map (fun o => match o with AddPoint p => [p] | ResetTo _ => [] end) ops.
(** The fluents of the last reset. *)
Definition relevant_of (cols : list text) (ops : list op) : list text := fold_left (fun fs o => match o with AddPoint _ => fs | ResetTo fs' => fs' end) ops cols.
Definition row_of (cols : list text) (p : list (text * Q)) : list Q := map (value_in p) cols.
(** The values of the columns in [q] are a weighted mean of those in some of the points. *)
Definition mean_of (points : list (list (text * Q))) (cols : list text) (q : list (text * Q)) : Prop :=
  exists ps, incl ps points /\ in_hull (map (row_of cols) ps) (row_of cols q).

(** ** Exact libraries *)
(** A regression on the columns of the table that does not have a perfect score means that there is no affine relation. *)
Definition constant_column (d : frame) (c : text) : Prop := exists v, forall x, In x (column d c) -> (x == v)%Q.
Definition affine_relation (d : frame) (others : list text) (f : text) : Prop :=
  exists cs i, length cs = length others /\ Forall (fun r => match get_col (f_cols d) r f with Some y => (linear (restrict (f_cols d) others r) cs + i == y)%Q | None => False end) (f_rows d).
Definition complete_fit (fit : list (list Q) -> list Q -> list Q * Q * bool) (d : frame) : Prop :=
  forall others f, others <> [] -> NoDup others -> incl (f :: others) (f_cols d) -> ~ In f others -> (forall c, In c (f :: others) -> ~ constant_column d c) ->
    snd (fit (map (restrict (f_cols d) others) (f_rows d)) (column d f)) = false -> ~ affine_relation d others f.
(** Only zero is orthogonal to all the vectors. *)
Definition full (n : nat) (vectors : list (list Q)) : Prop := forall x, length x = n -> (forall v, In v vectors -> (linear v x == 0)%Q) -> Forall (fun c => c == 0)%Q x.
Definition zero (v : list Q) : Prop := Forall (fun c => c == 0)%Q v.
(** The Gram-Schmidt process: vectors that span the space give a basis of it that leaves nothing over, and they span every vector; zeros give nothing. *)
Record exact_schmidt (schmidt : list (list Q) -> list (list Q) -> list (list Q)) : Prop := {
  es_basis : forall n vectors, rectangular n vectors -> full n vectors ->
    length (schmidt vectors []) = n /\ Forall (fun r => length r = n /\ (linear r r == 1)%Q) (schmidt vectors []) /\ schmidt (identity_matrix n) (schmidt vectors []) = [];
  es_spanned : forall n v basis, length v = n -> rectangular n basis -> full n basis -> schmidt [v] basis = [];
  es_zero : forall vectors, Forall zero vectors -> schmidt vectors [] = [];
  es_not_zero : forall v, schmidt [v] [] = [] -> zero v }.
Record exact_libraries (unit : positive) fit hull schmidt : Prop := {
  el_unit : (1 # unit < 1)%Q;
  el_fit : exact_fit unit fit;
  el_hull : exact_hull unit hull;
  el_complete : complete_hull hull;
  el_schmidt : exact_schmidt schmidt }.
(** qhull raises an error although the points span the space. *)
Definition hull_failure (hull : list (list Q) -> option (list (list Q) * list Q)) : Prop :=
  exists n points, 2 <= n /\ rectangular n points /\ (forall x k, length x = n -> (forall p, In p points -> (linear p x == k)%Q) -> zero x) /\ hull points = None.
(** The operation is done, or qhull's error passes through. *)
Definition done (hull : list (list Q) -> option (list (list Q) * list Q)) {A} (r : res A) : Prop := (exists a, r = Ok a) \/ (r = Err RuntimeError /\ hull_failure hull).

(** ** The input *)
Record inc_input (unit : positive) fit (cols : list text) (ops : list op) : Prop := {
  ii_cols : NoDup cols;
  ii_some : cols <> [];
  ii_dummy : ~ In dummy_text cols;
  ii_points : forall p, In p (points_of ops) -> over cols p;
  ii_resets : forall fs, In (ResetTo fs) ops -> NoDup fs /\ incl fs cols;
  (* numbers and their differences need no rounding *)
  ii_clean : forall p c, In p (points_of ops) -> In c cols -> clean unit (value_in p c);
  ii_spaced : forall p q c, In p (points_of ops) -> In q (points_of ops) -> In c cols -> clean unit (value_in p c - value_in q c);
  ii_fit : forall k d, f_cols d = cols -> stores d (points_of (firstn k ops)) -> complete_fit fit d }.
(** Inequalities hold up to the tolerance; equations are not looked at. *)
Definition roughly (st : state) (tolerance : Q) (t : text) : Prop :=
  exists op a b x y, parse t = Some (SNode [SSym op; a; b]) /\ eval st a = Some x /\ eval st b = Some y /\
    ((op = "<=" /\ (x <= y + tolerance)%Q) \/ (op = ">=" /\ (y <= x + tolerance)%Q) \/ op = "=").
