(** * Python built-ins used throughout the code base

    Insertion-ordered dictionaries, sets, itertools functions and exceptions.
    Nothing here is specific to one source file; each definition says which
    Python construct it stands for. *)

From Coq Require Export String List Bool Arith Lia ZArith Permutation.
Export ListNotations.
Open Scope list_scope.
Open Scope nat_scope.

(** Exceptions are values. *)
Inductive exc : Set :=
| KeyError | IndexError | ValueError | TypeError | AttributeError | StopIteration
| NotSafeError | RuntimeError | ZeroDivisionError.

Inductive res (A : Type) : Type :=
| Ok (a : A)
| Err (e : exc).
Arguments Ok {A} a.
Arguments Err {A} e.

Definition bind {A B} (r : res A) (f : A -> res B) : res B :=
  match r with Ok a => f a | Err e => Err e end.

Notation "'let*' x ':=' r 'in' k" := (bind r (fun x => k))
  (at level 200, x pattern, r at level 100, k at level 200, right associativity).

(** A [for] loop whose body may raise. *)
Fixpoint fold_res {A S} (f : S -> A -> res S) (l : list A) (s : S) : res S :=
  match l with
  | [] => Ok s
  | x :: xs => let* s' := f s x in fold_res f xs s'
  end.

(** A list comprehension whose element expression may raise. *)
Fixpoint map_res {A B} (f : A -> res B) (l : list A) : res (list B) :=
  match l with
  | [] => Ok []
  | x :: xs => let* y := f x in let* ys := map_res f xs in Ok (y :: ys)
  end.

(** Decidable equality ([==]). *)
Class EqDec (A : Type) := eq_dec : forall x y : A, {x = y} + {x <> y}.

#[export] Instance EqDec_string : EqDec string := string_dec.
#[export] Instance EqDec_nat : EqDec nat := Nat.eq_dec.
#[export] Instance EqDec_bool : EqDec bool := Bool.bool_dec.
#[export] Instance EqDec_Z : EqDec Z := Z.eq_dec.
#[export] Instance EqDec_prod {A B} `{EqDec A} `{EqDec B} : EqDec (A * B).
Proof. intros [a b] [a' b']; destruct (eq_dec a a'), (eq_dec b b'); [left|right|right|right]; congruence. Defined.
#[export] Instance EqDec_list {A} `{EqDec A} : EqDec (list A) := list_eq_dec eq_dec.
#[export] Instance EqDec_option {A} `{EqDec A} : EqDec (option A).
Proof. intros [a|] [b|]; [destruct (eq_dec a b); [left|right]|right|right|left]; congruence. Defined.

Definition eqb {A} `{EqDec A} (x y : A) : bool := if eq_dec x y then true else false.

(** [x in l] for lists, sets and dict keys. *)
Definition memb {A} `{EqDec A} (x : A) (l : list A) : bool :=
  existsb (eqb x) l.

(** ** Sets, represented by lists; only membership is observable. *)

(** [s.add(x)] *)
Definition set_add {A} `{EqDec A} (x : A) (s : list A) : list A :=
  if memb x s then s else s ++ [x].
(** [s.update(l)], [s.union(l)] *)
Definition set_union {A} `{EqDec A} (s l : list A) : list A :=
  fold_left (fun acc x => set_add x acc) l s.
(** [set(l)] *)
Definition to_set {A} `{EqDec A} (l : list A) : list A := set_union [] l.
(** [s.difference(l)], [s - l] *)
Definition set_diff {A} `{EqDec A} (s l : list A) : list A :=
  filter (fun x => negb (memb x l)) s.
(** [s.discard(x)] *)
Definition set_discard {A} `{EqDec A} (x : A) (s : list A) : list A :=
  filter (fun y => negb (eqb y x)) s.
(** [s.intersection(l)] *)
Definition set_inter {A} `{EqDec A} (s l : list A) : list A :=
  filter (fun x => memb x l) s.
(** [s.issubset(l)] *)
Definition subsetb {A} `{EqDec A} (s l : list A) : bool :=
  forallb (fun x => memb x l) s.
(** [s == l] on sets *)
Definition set_eqb {A} `{EqDec A} (s l : list A) : bool :=
  subsetb s l && subsetb l s.
(** [l.remove(x)] on lists: first occurrence only. *)
Fixpoint list_remove {A} `{EqDec A} (x : A) (l : list A) : list A :=
  match l with
  | [] => []
  | y :: ys => if eq_dec x y then ys else y :: list_remove x ys
  end.

(** ** Dictionaries: insertion-ordered association lists. *)
Fixpoint dict_get {K V} `{EqDec K} (d : list (K * V)) (k : K) : option V :=
  match d with
  | [] => None
  | (k', v) :: d' => if eq_dec k k' then Some v else dict_get d' k
  end.
(** [d[k] = v]: keeps the position of an existing key. *)
Fixpoint dict_set {K V} `{EqDec K} (d : list (K * V)) (k : K) (v : V) : list (K * V) :=
  match d with
  | [] => [(k, v)]
  | (k', v') :: d' => if eq_dec k k' then (k', v) :: d' else (k', v') :: dict_set d' k v
  end.
Definition dict_keys {K V} (d : list (K * V)) : list K := map fst d.
Definition dict_vals {K V} (d : list (K * V)) : list V := map snd d.
Definition dict_mem {K V} `{EqDec K} (k : K) (d : list (K * V)) : bool := memb k (dict_keys d).
(** A dict comprehension / display over a list of pairs: later pairs override. *)
Definition dict_of {K V} `{EqDec K} (l : list (K * V)) : list (K * V) :=
  fold_left (fun d kv => dict_set d (fst kv) (snd kv)) l [].
(** [d.pop(k, None)] *)
Definition dict_pop {K V} `{EqDec K} (d : list (K * V)) (k : K) : list (K * V) :=
  filter (fun kv => negb (eqb (fst kv) k)) d.
(** [d[k]] raising KeyError *)
Definition dict_lookup {K V} `{EqDec K} (d : list (K * V)) (k : K) : res V :=
  match dict_get d k with Some v => Ok v | None => Err KeyError end.

(** ** itertools *)

(** Every way of taking one element out of a list, in order. *)
Fixpoint picks {A} (l : list A) : list (A * list A) :=
  match l with
  | [] => []
  | x :: xs => (x, xs) :: map (fun p => (fst p, x :: snd p)) (picks xs)
  end.
(** [itertools.permutations(l, r)] (same order as CPython). *)
Fixpoint perms {A} (r : nat) (l : list A) : list (list A) :=
  match r with
  | 0 => [[]]
  | S r' => flat_map (fun p => map (cons (fst p)) (perms r' (snd p))) (picks l)
  end.
(** [itertools.combinations(l, r)] (same order as CPython). *)
Fixpoint combs {A} (r : nat) (l : list A) : list (list A) :=
  match r, l with
  | 0, _ => [[]]
  | S _, [] => []
  | S r', x :: xs => map (cons x) (combs r' xs) ++ combs r xs
  end.
(** [itertools.combinations(l, 2)] as pairs. *)
Fixpoint pairs2 {A} (l : list A) : list (A * A) :=
  match l with
  | [] => []
  | x :: xs => map (fun y => (x, y)) xs ++ pairs2 xs
  end.
(** [itertools.product( *ls)] *)
Fixpoint prods {A} (ls : list (list A)) : list (list A) :=
  match ls with
  | [] => [[]]
  | l :: ls' => flat_map (fun x => map (cons x) (prods ls')) l
  end.
(** [itertools.combinations_with_replacement(l, r)] (same order as CPython). *)
Fixpoint combs_rep {A} (r : nat) (l : list A) {struct r} : list (list A) :=
  match r with
  | 0 => [[]]
  | S r' =>
      (fix go (l : list A) : list (list A) :=
         match l with
         | [] => []
         | x :: xs => map (cons x) (combs_rep r' (x :: xs)) ++ go xs
         end) l
  end.

(** [len(set(l)) != len(l)] style duplicate detection is in the models; this is
    the boolean used to compute it. *)
Definition set_len {A} `{EqDec A} (l : list A) : nat := length (to_set l).
