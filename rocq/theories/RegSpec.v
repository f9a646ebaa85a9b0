(** * What learned numeric effects should do *)
From Verif Require Export RegModel HullSpec.
Open Scope string_scope. Open Scope list_scope. Open Scope nat_scope.

(** The statement changes the function term. *)
Definition targets (t : text) (f : string) (args : list string) : Prop :=
  exists op e, parse t = Some (SNode [SSym op; SNode (SSym f :: map SSym args); e]).
Definition scales_down (t : text) : Prop := exists l, parse t = Some (SNode (SSym "scale-down" :: l)).
(** The effects give the value [v] to the function term; without a statement it keeps its value.  "scale-down" is left out. *)
Definition gives (st : state) (effects : list text) (f : string) (args : list string) (v : Q) : Prop :=
  (forall t, In t effects -> targets t f args -> scales_down t \/ executes st t f args v) /\
  ((exists t, In t effects /\ targets t f args) \/ (st f args == v)%Q).
(** An accepted equation holds in each row; neither its coefficients nor their distances from 1 need rounding. *)
Definition exact_regression (unit : positive) (fit : list (list Q) -> list Q -> list Q * Q * bool) : Prop :=
  exact_fit unit fit /\ forall n rows target c i, rectangular n rows -> fit rows target = (c, i, true) -> Forall (fun x => clean unit (x - 1)) c.
(** Rows observed before and after the action. *)
Definition observed (l : learner) (p n : list Q) : Prop := In (p, n) (combine (f_rows (l_prev l)) (f_rows (l_next l))).
Definition wanted (relevant : option (list text)) (f : text) : Prop := match relevant with Some fs => In f fs | None => True end.
(** Columns that are multiples of each other have a factor that needs no rounding. *)
Definition exact_ratios (unit : positive) (d : frame) : Prop :=
  forall c1 c2 k, In c1 (f_cols d) -> In c2 (f_cols d) ->
  (exists row u, In row (f_rows d) /\ In (c1, u) (combine (f_cols d) row) /\ ~ (u == 0)%Q) ->
  (forall row u v, In row (f_rows d) -> In (c1, u) (combine (f_cols d) row) -> In (c2, v) (combine (f_cols d) row) -> (v == k * u)%Q) -> exact unit k.
(** The columns are function terms. *)
Definition function_columns (d : frame) : Prop := forall c, In c (f_cols d) -> is_function c.
