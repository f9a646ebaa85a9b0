(** * Properties C29, C47: texts of literals and fresh parameter names *)
From Coq Require Import Ascii.
From Verif Require Import Prelude Pddl LogicModel LogicSpec TextModel TextSpec TextProofs.

(** ** C29 *)

(** The search ends for every action and type, with a name '?' + first letter + suffix that is not a parameter. *)
Theorem C29_fresh_parameter_name (parameters : list string) (letter : ascii) (rest : string) :
  exists x suffix, create_additional_parameter_name parameters (String letter rest) = Ok x /\
    x = String "?" (String letter suffix) /\ ~ In x parameters.
Proof. exact (fresh_name_spec parameters letter rest). Qed.
Print Assumptions C29_fresh_parameter_name.

(** The iteration over objects yields exactly the non-excluded objects whose own type is an additional type. *)
Theorem C29_iterate_objects (objects : list pobject) additional exclude o t p :
  In (o, t, p) (iterate_over_objects_of_same_type objects additional exclude) <->
  In (t, p) additional /\ In o objects /\ t_name (snd o) = t /\ ~ In (fst o) exclude.
Proof. exact (iterate_spec objects additional exclude o t p). Qed.
Print Assumptions C29_iterate_objects.

(** ** C47 *)

(** Reading back the text of a literal gives the literal. *)
Theorem C47_text_round_trip (names : list string) (l : literal) :
  text_literal l -> incl (l_args l) names -> extract_predicate_data names (untyped l) = Ok l.
Proof. exact (extract_untyped names l). Qed.
Print Assumptions C47_text_round_trip.

(** Different literals have different texts. *)
Theorem C47_text_injective (l l' : literal) : text_literal l -> text_literal l' -> untyped l = untyped l' -> l = l'.
Proof. exact (untyped_injective l l'). Qed.
Print Assumptions C47_text_injective.
