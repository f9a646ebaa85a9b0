(** * The meaning of numeric PDDL strings *)
From Verif Require Export NumModel.
From Coq Require Export Permutation.
Open Scope string_scope. Open Scope list_scope. Open Scope nat_scope.

(** ** Reading *)
Inductive sexp := SNum (q : Q) | SSym (s : string) | SNode (l : list sexp).
(** Brackets are matched with a stack of the lists that are still open. *)
Fixpoint read (ts : text) (current : list sexp) (stack : list (list sexp)) : option sexp :=
  match ts with
  | [] => match current, stack with [s], [] => Some s | _, _ => None end
  | LP :: ts => read ts [] (current :: stack)
  | RP :: ts => match stack with c :: stack => read ts (SNode (rev current) :: c) stack | [] => None end
  | Sym s :: ts => read ts (SSym s :: current) stack
  | Num q :: ts => read ts (SNum q :: current) stack
  end.
Definition parse (t : text) : option sexp := read t [] [].

(** ** Evaluation in a numeric state: a value for every function term. *)
Definition state := string -> list string -> Q.
Definition arithmetic (op : string) : option (Q -> Q -> Q) :=
  if String.eqb op "+" then Some Qplus else if String.eqb op "-" then Some Qminus
  else if String.eqb op "*" then Some Qmult else None.
Definition symbol (s : sexp) : option string := match s with SSym x => Some x | _ => None end.
Fixpoint symbols (l : list sexp) : option (list string) :=
  match l with
  | [] => Some []
  | s :: l => match symbol s, symbols l with Some x, Some xs => Some (x :: xs) | _, _ => None end
  end.
Fixpoint eval (st : state) (s : sexp) : option Q :=
  match s with
  | SNum q => Some q
  | SSym _ => None
  | SNode (SSym f :: args) =>
      match arithmetic f with
      | Some op => match args with
                   | [a; b] => match eval st a, eval st b with Some x, Some y => Some (op x y) | _, _ => None end
                   | _ => None
                   end
      | None => option_map (st f) (symbols args)
      end
  | SNode _ => None
  end.
(** The string is an expression with value [v]. *)
Definition denotes (st : state) (t : text) (v : Q) : Prop := exists s w, parse t = Some s /\ eval st s = Some w /\ (w == v)%Q.
(** A function term, as in "(fuel ?x)". *)
Definition function_text (f : string) (args : list string) : text := LP :: Sym f :: map Sym args ++ [RP].
Definition is_function (t : text) : Prop := exists f args, t = function_text f args /\ arithmetic f = None.

(** ** Conditions and effects *)
Definition comparison (op : string) (a b : Q) : Prop :=
  (op = "<=" /\ (a <= b)%Q) \/ (op = ">=" /\ (b <= a)%Q) \/ (op = "=" /\ (a == b)%Q).
Definition satisfied (st : state) (t : text) : Prop :=
  exists op a b x y, parse t = Some (SNode [SSym op; a; b]) /\ eval st a = Some x /\ eval st b = Some y /\ comparison op x y.
(** What a numeric effect gives to its function: PDDL's five assignment operators. *)
Definition updated (op : string) (old v : Q) : option Q :=
  if String.eqb op "assign" then Some v else if String.eqb op "increase" then Some (old + v)%Q
  else if String.eqb op "decrease" then Some (old - v)%Q else if String.eqb op "scale-up" then Some (old * v)%Q
  else if String.eqb op "scale-down" then Some (old / v)%Q else None.
(** Executing the effect [t] gives the value [v] to the function term [f]. *)
Definition executes (st : state) (t : text) (f : string) (args : list string) (v : Q) : Prop :=
  exists op e x w, parse t = Some (SNode [SSym op; SNode (SSym f :: map SSym args); e]) /\ eval st e = Some x /\
    updated op (st f args) x = Some w /\ (w == v)%Q.

(** ** Intended values *)
Section Intended.
Variable unit : positive.
(** A coefficient is kept when its rounded value is larger than the smallest unit. *)
Definition kept (c : Q) : Prop := ((1 # unit) < Qabs (round unit c))%Q.
(** Numbers with the given digits. *)
Definition exact (c : Q) : Prop := exists z, (c == z # unit)%Q.
(** Sum of coefficient times value over the kept coefficients; the constant has the value 1. *)
Inductive weighted (st : state) : list text -> list Q -> nat -> Q -> Prop :=
| w_nil fs cs : fs = [] \/ cs = [] -> weighted st fs cs 0 0
| w_skip f fs c cs n v : ~ kept c -> weighted st fs cs n v -> weighted st (f :: fs) (c :: cs) n v
| w_term f fs c cs n v x : kept c -> f <> dummy_text -> denotes st f x -> weighted st fs cs n v ->
    weighted st (f :: fs) (c :: cs) (S n) (round unit c * x + v)
| w_const fs c cs n v : kept c -> weighted st fs cs n v -> weighted st (dummy_text :: fs) (c :: cs) (S n) (round unit c + v).
(** The exact sum. *)
Fixpoint linear (st : list Q) (cs : list Q) : Q := match st, cs with x :: xs, c :: cs => (c * x + linear xs cs)%Q | _, _ => 0%Q end.
End Intended.
Definition dot (a b : list Q) : Q := linear b a.

(** ** Exact equations *)
Section Exact.
Variable unit : positive.
(** Numbers that the strings show as they are: the given digits, and zero or larger than the smallest unit. *)
Definition clean (c : Q) : Prop := exact unit c /\ ((c == 0)%Q \/ ((1 # unit) < Qabs c)%Q).
(** The value of a function text; the constant counts as 1. *)
Definition valued (st : state) (f : text) (x : Q) : Prop := (f = dummy_text /\ (x == 1)%Q) \/ (f <> dummy_text /\ denotes st f x).
End Exact.
(** Sum over a map of coefficients. *)
Definition total (val : text -> Q) (m : list (text * Q)) : Q := fold_right (fun kv s => (snd kv * val (fst kv) + s)%Q) 0%Q m.

(** ** Monomials *)
(** Products of the given functions, at most [degree] of them. *)
Definition monomial_of (functions : list text) (degree : nat) (m : list text) : Prop := m <> [] /\ length m <= degree /\ incl m functions.
(** Exactly one element of the list is a rearrangement of [m]. *)
Definition exactly_once (m : list text) (ms : list (list text)) : Prop :=
  exists i m', nth_error ms i = Some m' /\ Permutation m m' /\ forall j m'', nth_error ms j = Some m'' -> Permutation m m'' -> j = i.
Definition product (vs : list Q) : Q := fold_right Qmult 1%Q vs.
Definition value_in (fluents : list (text * Q)) (f : text) : Q := match dict_get fluents f with Some v => v | None => 0%Q end.
