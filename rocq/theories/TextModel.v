(** * Model of sam_learning/core/propositional_operations/discrete_utilities.py and of the text form of literals *)
From Coq Require Import Ascii DecimalString.
From Verif Require Export Pddl LogicModel LogicSpec.
Open Scope string_scope.
Open Scope list_scope.
Open Scope nat_scope.

(** [Predicate.untyped_representation] of pddl_plus_parser. *)
Definition untyped (l : literal) : string := lit_text (atom_text (l_name l) (l_args l)) (l_pos l).

(** ** String methods *)

(** [s.replace(c, "")] for a single character. *)
Fixpoint remove_char (d : ascii) (s : string) : string :=
  match s with "" => "" | String c s' => if is_char d c then remove_char d s' else String c (remove_char d s') end.
(** [s.replace(pattern, "")]: left to right, not overlapping.  [skip] counts characters of a match still to drop. *)
Fixpoint remove_text (pat : string) (skip : nat) (s : string) : string :=
  match s with
  | "" => ""
  | String c s' =>
      match skip with
      | S k => remove_text pat k s'
      | 0 => if String.prefix pat s then remove_text pat (String.length pat - 1) s' else String c (remove_text pat 0 s')
      end
  end.
(** [s.strip(c)] *)
Fixpoint rstrip (d : ascii) (s : string) : string :=
  match s with
  | "" => ""
  | String c s' => match rstrip d s' with
                   | "" => if is_char d c then "" else String c ""
                   | t => String c t
                   end
  end.
Definition strip (d : ascii) (s : string) : string := rstrip d (drop_while (is_char d) s).
(** [s.split(" ")] *)
Fixpoint split_space (s : string) : list string :=
  match s with
  | "" => [""]
  | String c s' => if is_char " " c then "" :: split_space s'
                   else match split_space s' with
                        | [] => [String c ""]
                        | w :: ws => String c w :: ws
                        end
  end.

(** discrete_utilities.py:12-42 [extract_predicate_data].  [names] are the keys of the combined signature:
    parameters, the additional parameter and the constants. *)
Definition extract_predicate_data (names : list string) (predicate_str : string) : res literal :=
  let negative := String.prefix "(not " predicate_str in
  let data := if negative then split_space (strip ")" (remove_text "(not (" 0 predicate_str))
              else split_space (remove_char ")" (remove_char "(" predicate_str)) in
  match filter (fun d => negb (eqb d "")) data with
  | [] => Err IndexError
  | name :: args =>
      if forallb (fun a => memb a names) args then Ok (mkLit name (to_set args) (negb negative)) else Err KeyError
  end.

(** The decimal digits of a number, as in an f-string. *)
Definition decimal (n : nat) : string := NilZero.string_of_uint (Nat.to_uint n).

(** discrete_utilities.py:53-59: the search loop; [fuel] bounds the number of rounds. *)
Fixpoint fresh_loop (fuel : nat) (letter : ascii) (index : nat) (name : string) (parameters : list string) : res string :=
  if memb name parameters then
    match fuel with
    | 0 => Err RuntimeError
    | S fuel' => fresh_loop fuel' letter (S index) (String "?" (String letter (decimal index))) parameters
    end
  else Ok name.
(** discrete_utilities.py:45-59 [create_additional_parameter_name] on the parameters of the action; an empty type
    name has no first letter. *)
Definition create_additional_parameter_name (parameters : list string) (type_name : string) : res string :=
  match type_name with
  | "" => Err IndexError
  | String letter _ => fresh_loop (S (length parameters)) letter 1 (String "?" (String letter "")) parameters
  end.

(** discrete_utilities.py:62-78 [find_unique_objects_by_type]. *)
Definition find_unique_objects_by_type (objects : list pobject) (exclude : list string) : list (string * list pobject) :=
  fold_left (fun d o => if memb (fst o) exclude then d
                        else dict_set d (t_name (snd o))
                               (match dict_get d (t_name (snd o)) with Some l => l | None => [] end ++ [o]))
            objects [].
(** discrete_utilities.py:81-94 [iterate_over_objects_of_same_type]. *)
Definition iterate_over_objects_of_same_type (objects : list pobject) (additional : list (string * string))
  (exclude : list string) : list (pobject * string * string) :=
  let by_type := find_unique_objects_by_type objects exclude in
  flat_map (fun tp => map (fun o => (o, fst tp, snd tp))
                          (match dict_get by_type (fst tp) with Some l => l | None => [] end)) additional.
