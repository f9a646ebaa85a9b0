(** * Properties of the numeric learning utilities *)
From Verif Require Import NumModel NumSpec NumProofs MonoProofs HullModel HullSpec HullProofs HullObserved HullSafe HullMean RegModel RegSpec RegProofs.
Open Scope string_scope. Open Scope list_scope. Open Scope nat_scope.

(** ** C33 *)
Theorem C33_interval : forall unit fit hull gram complement cols0 points relevant f st x,
  points <> [] -> (forall p q, In p points -> In q points -> over (dict_keys q) p) -> (forall p, In p points -> In f (dict_keys p)) ->
  (relevant = Some [f] \/ (relevant = None /\ forall p, In p points -> dict_keys p = [f])) -> denotes st f x ->
  exists conditions, construct_safe_linear_inequalities unit fit hull gram complement (add_points (mk_frame cols0 []) points) relevant = Ok (Some conditions) /\
    (all_satisfied st (Some conditions) <-> between_observed points f x).
Proof. exact one_dimension. Qed.
Theorem C33_widens : forall unit fit hull gram complement cols0 points more relevant f st x conditions,
  points <> [] -> (forall p q, In p (points ++ more) -> In q (points ++ more) -> over (dict_keys q) p) -> (forall p, In p (points ++ more) -> In f (dict_keys p)) ->
  (relevant = Some [f] \/ (relevant = None /\ forall p, In p (points ++ more) -> dict_keys p = [f])) -> denotes st f x ->
  construct_safe_linear_inequalities unit fit hull gram complement (add_points (mk_frame cols0 []) points) relevant = Ok (Some conditions) ->
  all_satisfied st (Some conditions) ->
  exists wider, construct_safe_linear_inequalities unit fit hull gram complement (add_points (mk_frame cols0 []) (points ++ more)) relevant = Ok (Some wider) /\
    all_satisfied st (Some wider).
Proof. exact widens. Qed.
Theorem C33_stored : forall cols0 p points, NoDup (dict_keys p) -> dict_keys p <> [] -> (forall q, In q points -> over (dict_keys p) q) ->
  stores (add_points (mk_frame cols0 []) (p :: points)) (p :: points) /\ f_cols (add_points (mk_frame cols0 []) (p :: points)) = dict_keys p.
Proof. exact add_points_stores. Qed.

(** ** C34 *)
Theorem C34_value : forall unit st fs cs n v, weighted unit st fs cs (S n) v ->
  denotes st (construct_linear_equation_string (construct_multiplication_strings unit cs fs)) v.
Proof. exact linear_string_denotes. Qed.
Theorem C34_empty : forall unit st fs cs v, weighted unit st fs cs 0 v -> construct_linear_equation_string (construct_multiplication_strings unit cs fs) = [].
Proof. exact linear_string_empty. Qed.
Theorem C34_total : forall unit st fs, (forall f, In f fs -> f <> dummy_text -> exists x, denotes st f x) -> forall cs, exists n v, weighted unit st fs cs n v.
Proof. exact weighted_total. Qed.
Theorem C34_exact : forall unit st val fs cs, (forall f, In f fs -> valued st f (val f)) -> length cs = length fs -> Forall (clean unit) cs ->
  ~ Forall (fun c => c == 0)%Q cs ->
  denotes st (construct_linear_equation_string (construct_multiplication_strings unit cs fs)) (linear (map val fs) cs).
Proof. exact exact_string. Qed.

(** ** C35 *)
Theorem C35_effect_partial : forall unit st val f args m c previous next, let lifted := function_text f args in
  arithmetic f = None -> NoDup (dict_keys m) -> (forall k, In k (dict_keys m) -> valued st k (val k)) -> dict_get m lifted = Some c ->
  (forall k d, In (k, d) m -> k <> lifted -> clean unit d) -> clean unit (c - 1) -> lifted <> dummy_text ->
  ~ ((c == 1)%Q /\ forall k d, In (k, d) m -> k <> lifted -> (d == 0)%Q) ->
  exists t, construct_non_circular_assignment unit lifted m previous next = Ok t /\ executes st t f args (total val m).
Proof. exact non_circular. Qed.

(** ** C36 *)
Theorem C36_complete_partial : forall le fs d m, NoDup fs -> 2 <= d -> monomial_of fs d m -> exactly_once m (create_monomials le fs d).
Proof. exact monomials_complete. Qed.
Theorem C36_sound_partial : forall le fs d m, 2 <= d -> In m (create_monomials le fs d) -> monomial_of fs d m.
Proof. exact monomials_sound. Qed.
Theorem C36_linear : forall le fs, create_monomials le fs 0 = map (fun f => [f]) fs.
Proof. exact monomials_zero. Qed.
Theorem C36_one_complete : forall le fs m, NoDup fs -> NoDup m -> monomial_of fs 2 m -> exactly_once m (create_monomials le fs 1).
Proof. exact monomials_one_complete. Qed.
Theorem C36_one_sound : forall le fs m, NoDup fs -> In m (create_monomials le fs 1) -> NoDup m /\ monomial_of fs 2 m.
Proof. exact monomials_one_sound. Qed.
Theorem C36_value : forall st m vs, Forall2 (denotes st) m vs -> m <> [] -> denotes st (create_polynomial_string m) (product vs).
Proof. exact polynomial_denotes. Qed.
Theorem C36_names : forall m m', Forall is_function m -> Forall is_function m' -> m <> [] -> m' <> [] -> create_polynomial_string m = create_polynomial_string m' -> m = m'.
Proof. exact polynomial_inj. Qed.

Theorem C36_grounded : forall ms fluents, Forall (fun m => m <> [] /\ Forall is_function m) ms ->
  let d := create_grounded_monomials ms fluents in
  (forall m, In m ms -> incl m (dict_keys fluents) -> exists v, dict_get d (create_polynomial_string m) = Some v /\ (v == product (map (value_in fluents) m))%Q) /\
  (forall k, In k (dict_keys d) -> exists m, In m ms /\ incl m (dict_keys fluents) /\ k = create_polynomial_string m).
Proof. exact grounded_spec. Qed.

(** ** C37 *)
Theorem C37_effects_partial : forall unit fine fit rank, (exists k, fine = (unit * k)%positive) -> exact_regression unit fit ->
  forall l relevant l' effects conditions safe, table (l_prev l) -> table (l_next l) -> function_columns (l_next l) ->
  construct_assignment_equations unit fine fit rank l false relevant = Ok (l', effects, conditions, safe) ->
  forall p n st f args v, observed l p n -> row_state st (f_cols (l_prev l)) p -> In (function_text f args, v) (combine (f_cols (l_next l)) n) -> wanted relevant (function_text f args) ->
    gives st effects f args v.
Proof. exact effects_reproduce. Qed.

(** ** C59 *)
Theorem C59_reduce : forall hull basis x, (forall v r, In v basis -> In r hull -> length r = length v) -> (forall v, In v basis -> (dot v x == 0)%Q) ->
  exists hull', reduce_complementary_conditions_from_convex_hull hull basis = Ok hull' /\ Forall2 (fun r r' => dot r' x == dot r x)%Q hull hull'.
Proof. exact reduce_ok. Qed.
Theorem C59_divide : forall es, Forall (fun e => ~ Forall (fun c => c == 0)%Q e) es -> exists es', divide_span_by_common_denominator es = Ok es' /\
  Forall2 (fun e e' => forall x, (dot e x == 0)%Q <-> (dot e' x == 0)%Q) es es'.
Proof. exact divide_ok. Qed.
Theorem C59_divide_zero : forall es1 e es2, Forall (fun e => ~ Forall (fun c => c == 0)%Q e) es1 -> Forall (fun c => c == 0)%Q e ->
  divide_span_by_common_denominator (es1 ++ e :: es2) = Err IndexError.
Proof. exact divide_zero. Qed.

(** ** C60 *)
Theorem C60_observed : forall unit fit hull gram complement data relevant conditions st row, (1 # unit < 1)%Q ->
  exact_fit unit fit -> exact_hull unit hull -> exact_basis unit gram complement ->
  table data -> clean_data unit data -> In row (f_rows data) -> row_state st (f_cols data) row ->
  construct_safe_linear_inequalities unit fit hull gram complement data relevant = Ok conditions -> all_satisfied st conditions.
Proof. exact observed_satisfied. Qed.
Theorem C60_means : forall unit fit hull gram complement data relevant conditions st x, (1 # unit < 1)%Q ->
  exact_fit unit fit -> exact_hull unit hull -> exact_basis unit gram complement ->
  table data -> clean_data unit data -> length x = length (f_cols data) -> row_state st (f_cols data) x ->
  in_hull (map (chosen relevant (f_cols data)) (f_rows data)) (chosen relevant (f_cols data) x) ->
  construct_safe_linear_inequalities unit fit hull gram complement data relevant = Ok conditions -> all_satisfied st conditions.
Proof. exact means_satisfied. Qed.
Theorem C60_tolerance : forall unit st val headers row b, (forall h, In h headers -> h <> dummy_text /\ denotes st h (val h)) -> length row = length headers ->
  ~ Forall (fun c => negligible unit (round unit (if Qltb (EPSILON unit) (Qabs c) then c else 0%Q)) = true) row -> (linear (map val headers) row <= b)%Q ->
  satisfied_within st (form "<=" (construct_linear_equation_string (construct_multiplication_strings unit (prettify_coefficients unit row) headers))
                            [Num (round unit (if Qltb (EPSILON unit) (Qabs b) then b else 0%Q))])
                   ((1 # unit) + (3 # 2) * (1 # unit) * sum_abs (map val headers))%Q.
Proof. exact scheme_tolerance. Qed.

(** ** C62 *)
Theorem C62_safe : forall unit fit hull gram complement data relevant conditions st x, (1 # unit < 1)%Q ->
  exact_fit unit fit -> exact_hull unit hull -> complete_hull hull -> exact_basis unit gram complement -> complete_basis gram complement ->
  table data -> clean_data unit data -> f_rows data <> [] -> length x = length (f_cols data) -> row_state st (f_cols data) x ->
  construct_safe_linear_inequalities unit fit hull gram complement data relevant = Ok conditions -> all_satisfied st conditions ->
  in_hull (map (chosen relevant (f_cols data)) (f_rows data)) (chosen relevant (f_cols data) x).
Proof. exact satisfied_in_hull. Qed.

(** ** C61 *)
Theorem C61_conditions : forall unit fine fit rank l relevant allow l' effects conditions safe, table (l_prev l) -> table (l_next l) -> exact_ratios unit (l_prev l) ->
  construct_assignment_equations unit fine fit rank l allow relevant = Ok (l', effects, conditions, safe) ->
  forall p n st, observed l p n -> row_state st (f_cols (l_prev l)) p -> all_satisfied st conditions.
Proof. exact conditions_hold. Qed.

Print Assumptions C33_interval. Print Assumptions C33_widens. Print Assumptions C33_stored. Print Assumptions C34_value. Print Assumptions C34_empty.
Print Assumptions C34_total. Print Assumptions C34_exact. Print Assumptions C35_effect_partial. Print Assumptions C36_complete_partial. Print Assumptions C36_sound_partial.
Print Assumptions C36_linear. Print Assumptions C36_one_complete. Print Assumptions C36_one_sound. Print Assumptions C36_value. Print Assumptions C36_names. Print Assumptions C36_grounded.
Print Assumptions C37_effects_partial. Print Assumptions C59_reduce. Print Assumptions C59_divide. Print Assumptions C59_divide_zero. Print Assumptions C60_observed.
Print Assumptions C60_means. Print Assumptions C60_tolerance. Print Assumptions C61_conditions. Print Assumptions C62_safe.
