(** * Specification: merged parameter groups, macro calls and their expansion *)
From Coq Require Import Ascii.
From Verif Require Export MaSpec TextSpec MacroModel.
Open Scope string_scope.
Open Scope list_scope.
Open Scope nat_scope.

(** ** Merging groups *)

(** Two elements are together in some group. *)
Definition together {A} (groups : list (list A)) (x y : A) : Prop := exists g, In g groups /\ In x g /\ In y g.
(** A chain of groups, each sharing an element with the next, leads from one element to the other. *)
Inductive linked {A} (groups : list (list A)) : A -> A -> Prop :=
| linked_here x y : together groups x y -> linked groups x y
| linked_step x y z : linked groups x y -> together groups y z -> linked groups x z.

(** The members of some set of a collection. *)
Definition union_of {A} (sets : list (list A)) (x : A) : Prop := exists s, In s sets /\ In x s.

(** ** Plan lines *)

(** The plan line of a call: "(name o1 ... on)". *)
Definition call_line (c : call) : string :=
  ("(" ++ c_name c ++ fold_right (fun o rest => " " ++ o ++ rest) "" (c_params c) ++ ")")%string.
(** Names that a plan line can carry: non-empty, without white space and brackets. *)
Definition token (s : string) : Prop := s <> "" /\ all_chars token_char s = true.

(** ** Macro calls *)

(** The object that a macro call binds to the parameter [p] of the micro action [a]. *)
Definition macro_value (mp : binding) (sg : assignment) (a p : string) : string :=
  match dict_get mp (a, p) with Some v => sg v | None => p end.
(** The call of the micro action that the macro call stands for. *)
Definition micro_call (mp : binding) (sg : assignment) (a : action) : call :=
  mkCall (a_name a) (map (macro_value mp sg (a_name a)) (dict_keys (a_sig a))).
(** The assignment made by the objects of a macro call. *)
Definition bind_objects (params objects : list string) : assignment :=
  fun x => match dict_get (combine params objects) x with Some o => o | None => x end.

(** Every parameter of the actions and nothing else is mapped. *)
Definition maps_all (mp : binding) (actions : list action) : Prop :=
  NoDup (dict_keys mp) /\
  forall a p, In (a, p) (dict_keys mp) <-> exists act, In act actions /\ a_name act = a /\ In p (dict_keys (a_sig act)).
(** The groups mention parameters of the actions only. *)
Definition groups_over (groups : list (list param)) (actions : list action) : Prop :=
  forall g a p, In g groups -> In (a, p) g -> exists act, In act actions /\ a_name act = a /\ In p (dict_keys (a_sig act)).
(** Different actions with well-formed signatures. *)
Definition action_set (actions : list action) : Prop :=
  NoDup (map a_name actions) /\ forall act, In act actions -> NoDup (dict_keys (a_sig act)).

(** Parameter names that the pattern for parameters reads as a whole: a question mark and word characters. *)
Definition parameter_name (s : string) : Prop := exists w, s = String "?" w /\ w <> "" /\ all_chars is_word w = true.
(** Predicate names: words without a question mark, other than "not". *)
Definition predicate_name (s : string) : Prop :=
  word s /\ s <> "not" /\ all_chars (fun c => negb (is_char "?" c)) s = true.

(** ** Safety of a macro action *)

(** The parameter and predicate names of the domain are read back as a whole, there are no constants, every action
    has parameters and no parameter name is used by two actions. *)
Record macro_domain (dom : domain) : Prop :=
  { md_consts : d_consts dom = [];
    md_params : forall n a p, dict_get (d_actions dom) n = Some a -> In p (dict_keys (a_sig a)) -> parameter_name p;
    md_preds : forall p sig, In (p, sig) (d_preds dom) -> predicate_name p;
    md_some : forall n a, dict_get (d_actions dom) n = Some a -> a_sig a <> [];
    md_own : forall n a n' a' p, dict_get (d_actions dom) n = Some a -> dict_get (d_actions dom) n' = Some a' ->
               In p (dict_keys (a_sig a)) -> In p (dict_keys (a_sig a')) -> n = n' }.

(** Wherever the macro action is applicable with objects that make the micro calls injective and free of conflicts,
    every real micro action is applicable, and the macro action has the outcome of executing them together. *)
Definition macro_safe (real : string -> option action) (mp : binding) (group : list action) (m : action) : Prop :=
  forall sg s, let calls := map (micro_call mp sg) group in
    (forall c, In c calls -> NoDup (c_params c)) -> conflict_free real calls -> applicable m sg s ->
    (forall c, In c calls -> exists r, real (c_name c) = Some r /\
       forall l, In l (a_pre r) -> lit_true s (ground (call_assignment (a_sig r) c) l)) /\
    forall p args, after m sg s p args <->
      joint_effect real calls (mkLit p args true) \/ (holds s p args /\ ~ joint_effect real calls (mkLit p args false)).

(** The actions of the list have names and signatures of the domain. *)
Definition actions_of (dom : domain) (group : list action) : Prop :=
  forall a, In a group -> exists a0, dict_get (d_actions dom) (a_name a) = Some a0 /\ a_sig a = a_sig a0.

(** No name given to a macro action is the name of an action of the domain. *)
Definition no_name_clash (dom : domain) (uuids : nat -> string) : Prop :=
  forall ns, incl ns (dict_keys (d_actions dom)) -> NoDup ns -> 2 <= length ns ->
    ~ In (String.concat "-" ns) (dict_keys (d_actions dom)) /\
    forall i, ~ In (String.concat "-" ns ++ "---" ++ uuids i)%string (dict_keys (d_actions dom)).
