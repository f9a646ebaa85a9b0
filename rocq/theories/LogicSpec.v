(** * Meaning of literal texts, clauses and conjunctions *)
From Coq Require Import Ascii.
From Verif Require Export LogicModel.
Open Scope string_scope.
Open Scope list_scope.
Open Scope nat_scope.

(** ** Literals as texts *)

(** The text of a signed atom. *)
Definition lit_text (a : string) (b : bool) : string := if b then a else ("(not " ++ a ++ ")")%string.

(** A PDDL atom in the untyped representation: "(name arg1 ... argn)", with "(name )" for no argument. *)
Fixpoint join (l : list string) : string :=
  match l with [] => "" | [x] => x | x :: xs => (x ++ " " ++ join xs)%string end.
Definition atom_text (name : string) (args : list string) : string :=
  ("(" ++ name ++ " " ++ join args ++ ")")%string.

(** Predicate names: letters, digits, '_', '-', '?', '+', not starting with "not".  Arguments: letters,
    digits, '_', '?', '+'. *)
Definition name_char (c : ascii) : bool := is_word c || is_char "-" c || is_char "?" c || is_char "+" c.
Definition arg_char (c : ascii) : bool := is_word c || is_char "?" c || is_char "+" c.
Definition plain_atom (name : string) (args : list string) : Prop :=
  all_chars name_char name = true /\ String.prefix "not" name = false /\
  Forall (fun x => all_chars arg_char x = true) args.

(** The literal texts the library produces for such atoms. *)
Definition plain_literal (s : string) : Prop :=
  exists name args b, plain_atom name args /\ s = lit_text (atom_text name args) b.

(** ** Truth *)

(** A literal text is true in a valuation of the atom texts. *)
Definition text_holds (v : string -> bool) (s : string) : Prop :=
  exists name args b, plain_atom name args /\ s = lit_text (atom_text name args) b /\ v (atom_text name args) = b.

Definition clause_holds {A} (holds : A -> Prop) (c : list A) : Prop := exists l, In l c /\ holds l.
Definition cnf_holds {A} (holds : A -> Prop) (cs : list (list A)) : Prop := forall c, In c cs -> clause_holds holds c.
Definition conj_holds {A} (holds : A -> Prop) (c : list A) : Prop := forall l, In l c -> holds l.
(** A disjunction of conjunctions. *)
Definition dnf_holds {A} (holds : A -> Prop) (cs : list (list A)) : Prop := exists c, In c cs /\ conj_holds holds c.
