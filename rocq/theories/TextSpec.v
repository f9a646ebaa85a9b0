(** * Specification vocabulary: well-formed texts *)
From Coq Require Import Ascii.
From Verif Require Import Prelude Pddl LogicModel LogicSpec.
Open Scope string_scope.
Open Scope list_scope.
Open Scope nat_scope.

Definition word_char (c : ascii) : bool := negb (is_char " " c || is_char "(" c || is_char ")" c).
(** A non-empty text without blanks and brackets. *)
Definition word (s : string) : Prop := s <> "" /\ all_chars word_char s = true.

(** A literal whose name and arguments are words, with pairwise distinct arguments. *)
Record text_literal (l : literal) : Prop :=
  { tl_name : word (l_name l); tl_not : l_name l <> "not";
    tl_args : Forall word (l_args l); tl_nodup : NoDup (l_args l) }.
