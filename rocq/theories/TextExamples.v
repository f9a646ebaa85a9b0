(** * Concrete cases for C29 and C47 *)
From Coq Require Import Ascii.
From Verif Require Import Prelude PreludeProofs Pddl LogicModel LogicSpec TextModel TextSpec TextProofs.
Open Scope string_scope.
Open Scope list_scope.
Open Scope nat_scope.

Example C29_case :
  create_additional_parameter_name ["?b1"; "?b"; "?b2"; "?x"] "block" = Ok "?b3" /\
  create_additional_parameter_name ["?b1"] "block" = Ok "?b".
Proof. vm_compute. auto. Qed.

(** A type without a name has no first letter. *)
Example C29_empty_type_name : create_additional_parameter_name ["?x"] "" = Err IndexError.
Proof. reflexivity. Qed.

Definition far_from : literal := mkLit "far-from" ["?x"; "depot"] false.
Example C47_case : text_literal far_from /\ untyped far_from = "(not (far-from ?x depot))" /\
  extract_predicate_data ["?x"; "?y"; "depot"] (untyped far_from) = Ok far_from.
Proof.
  repeat split; try discriminate; try (vm_compute; reflexivity).
  - repeat constructor; (discriminate || reflexivity).
  - repeat constructor; simpl; intuition discriminate.
Qed.

(** The arguments are collected in a dictionary, so a literal that repeats an argument is not read back. *)
Theorem C47_repeated_argument_refuted : exists l, l_args l = ["?x"; "?x"] /\
  extract_predicate_data ["?x"] (untyped l) = Ok (mkLit (l_name l) ["?x"] (l_pos l)).
Proof. exists (mkLit "link" ["?x"; "?x"] true). vm_compute. auto. Qed.

(** A predicate called "not" is read as a negation. *)
Theorem C47_predicate_named_not_refuted : exists l, l_pos l = true /\ l_name l = "not" /\
  extract_predicate_data ["?x"] (untyped l) <> Ok l.
Proof. exists (mkLit "not" ["?x"] true). vm_compute. repeat split; discriminate. Qed.
