(** * Numeric utilities

    Model of sam_learning/core/numeric_learning/numeric_utils.py.  Numbers are rationals, so arithmetic is exact.  A PDDL string
    is the list of its tokens; a number is one token that carries its value.  [unit] is 10 to the power of DECIMAL_DIGITS. *)
From Verif Require Export Prelude.
From Coq Require Export QArith Qround Qabs.
Open Scope string_scope. Open Scope list_scope. Open Scope nat_scope.

Inductive tok := LP | RP | Sym (s : string) | Num (q : Q).
#[global] Instance tok_eq_dec : EqDec tok.
Proof. intros x y. unfold EqDec in *. decide equality; [apply string_dec|decide equality; [apply Pos.eq_dec|apply Z.eq_dec]]. Defined.
Definition text := list tok.
#[global] Instance text_eq_dec : EqDec text.
Proof. intros x y. apply (list_eq_dec eq_dec). Defined.
(** f"({op} {a} {b})" *)
Definition form (op : string) (a b : text) : text := LP :: Sym op :: a ++ b ++ [RP].
(** "(dummy)" *)
Definition dummy_text : text := [LP; Sym "dummy"; RP].

Section Num.
Variable unit : positive.
(** 21-22 *)
Definition EPSILON : Q := 1 # unit.

(** Python's round to an integer: to the nearest, ties to the even one. *)
Definition round_even (q : Q) : Z :=
  let f := Qfloor q in
  match (q - inject_Z f ?= 1 # 2)%Q with Lt => f | Gt => (f + 1)%Z | Eq => if Z.even f then f else (f + 1)%Z end.
(** [round(q, DECIMAL_DIGITS)] *)
Definition round (q : Q) : Q := round_even (q * inject_Z (Zpos unit)) # unit.
(** [int(q)] *)
Definition trunc (q : Q) : Z := Z.quot (Qnum q) (Zpos (Qden q)).
Definition Qltb (a b : Q) : bool := negb (Qle_bool b a).

(** 39-45 *)
Definition prettify_floating_point_number (q : Q) : Q :=
  if Qltb (Qabs (q - inject_Z (trunc q))) EPSILON then inject_Z (trunc q) else q.
(** 57 *)
Definition negligible (c : Q) : bool := Qle_bool (Qabs (round c)) EPSILON.
(** 48-69 *)
Definition construct_multiplication_strings (coefficients : list Q) (functions : list text) : list text :=
  flat_map (fun fc => let func := fst fc in let coefficient := snd fc in
    if negligible coefficient then []
    else if Prelude.eqb func dummy_text then [[Num (prettify_floating_point_number (round coefficient))]]
    else if Qeq_bool coefficient 1 then [func]
    else [form "*" func [Num (prettify_floating_point_number (round coefficient))]]) (combine functions coefficients).
(** 72-80 *)
Definition prettify_coefficients (coefficients : list Q) : list Q :=
  map (fun c => round (if Qltb EPSILON (Qabs c) then c else 0%Q)) coefficients.
(** 120-133 *)
Fixpoint construct_linear_equation_string (parts : list text) : text :=
  match parts with
  | [] => []
  | [p] => p
  | p :: ps => form "+" p (construct_linear_equation_string ps)
  end.
(** 136-164 *)
Definition construct_non_circular_assignment (lifted : text) (coefficients : list (text * Q)) (previous next : Q) : res text :=
  let* (m, op) :=
    if Qltb previous next then
      let* c := dict_lookup coefficients lifted in Ok (dict_set coefficients lifted (c - 1)%Q, "increase")
    else
      let m := map (fun kv => (fst kv, (- snd kv)%Q)) coefficients in
      let* c := dict_lookup m lifted in Ok (dict_set m lifted (c + 1)%Q, "decrease") in
  let parts := construct_multiplication_strings (dict_vals m) (dict_keys m) in
  Ok (form op lifted (construct_linear_equation_string parts)).
(** 83-117 *)
Definition construct_projected_variable_strings (functions : list text) (shift : list Q) (basis : list (list Q)) : list text :=
  let shifted := map (fun fs => if Qeq_bool (snd fs) 0 then fst fs
                                else form "-" (fst fs) [Num (prettify_floating_point_number (round (snd fs)))]) (combine functions shift) in
  map (fun row => construct_linear_equation_string
    (flat_map (fun sc => if negligible (snd sc) then []
                         else if Qeq_bool (snd sc) 1 then [fst sc]
                         else [form "*" (fst sc) [Num (prettify_floating_point_number (round (snd sc)))]]) (combine shifted row))) basis.
(** 545-568 with a list of border points *)
Definition construct_pddl_inequality_scheme (matrix : list (list Q)) (borders : list Q) (headers : list text) (sign : string) : list text :=
  map (fun rb => form sign (construct_linear_equation_string (construct_multiplication_strings (fst rb) headers)) [Num (snd rb)])
      (combine matrix borders).
End Num.

(** ** Monomials *)
Section Monomials.
(** The order of strings that [sorted] uses. *)
Variable le : text -> text -> bool.
Fixpoint insert (x : text) (l : list text) : list text :=
  match l with [] => [x] | y :: l' => if le x y then x :: l else y :: insert x l' end.
Definition sorted (l : list text) : list text := fold_right insert [] l.
(** 376-396 *)
Definition create_monomials (functions : list text) (degree : nat) : list (list text) :=
  let monomials := map (fun f => [f]) functions in
  if degree =? 0 then monomials
  else if degree =? 1 then monomials ++ map (fun xy => sorted [fst xy; snd xy]) (pairs2 functions)
  else monomials ++ flat_map (fun d => map sorted (combs_rep d functions)) (seq 2 (degree - 1)).
(** 425-443; an empty monomial raises IndexError and is never created *)
Fixpoint create_polynomial_string (fluents : list text) : text :=
  match fluents with [] => [] | [f] => f | f :: fs => form "*" f (create_polynomial_string fs) end.
(** 399-422 *)
Definition create_grounded_monomials (monomials : list (list text)) (fluents : list (text * Q)) : list (text * Q) :=
  fold_left (fun d m =>
    if existsb (fun c => negb (memb c (dict_keys fluents))) m then d
    else dict_set d (create_polynomial_string m)
                  (fold_left Qmult (map (fun f => match dict_get fluents f with Some v => v | None => 0%Q end) m) 1%Q)) monomials [].
End Monomials.

(** ** Equations *)
(** 460-469 *)
Fixpoint first_non_zero (l : list Q) : option nat :=
  match l with [] => None | x :: l => if Qeq_bool x 0 then option_map S (first_non_zero l) else Some 0 end.
(** 446-457; an equation of zeros raises IndexError *)
Definition divide_span_by_common_denominator (equations : list (list Q)) : res (list (list Q)) :=
  map_res (fun e => match filter (fun c => negb (Qeq_bool c 0)) e with
                    | [] => Err IndexError
                    | c :: _ => Ok (map (fun x => (x / c)%Q) e) end) equations.
(** 472-497.  [nth i row 0]; adding rows of different lengths raises ValueError *)
Fixpoint set_at (l : list Q) (i : nat) (v : Q) : list Q :=
  match l, i with [], _ => [] | _ :: l, 0 => v :: l | x :: l, S i => x :: set_at l i v end.
Definition add_rows (a b : list Q) : list Q := map (fun xy => (fst xy + snd xy)%Q) (combine a b).
Definition reduce_row (vector row : list Q) : list Q :=
  match first_non_zero vector with
  | None => row
  | Some i =>
      let new_conditions := map (fun x => (- (1) / nth i vector 0%Q * x)%Q) vector in
      set_at (add_rows row (map (fun x => (x * nth i row 0%Q)%Q) new_conditions)) i 0%Q
  end.
Definition reduce_complementary_conditions_from_convex_hull (hull basis : list (list Q)) : res (list (list Q)) :=
  match basis with
  | [] => Ok hull
  | _ => if forallb (fun v => forallb (fun r => length r =? length v) hull) basis
         then Ok (map (fun row => fold_left (fun r v => reduce_row v r) basis row) hull) else Err ValueError
  end.
