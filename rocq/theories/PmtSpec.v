(** * What PlanMiner is given and what is made of its answer *)
From Coq Require Import Ascii.
From Verif Require Export GenSpec PmtModel.
From Verif Require Import Prelude.
Open Scope string_scope. Open Scope list_scope. Open Scope nat_scope.

(** ** Reading a state: the groups of brackets inside the outermost brackets *)
Fixpoint groups (depth : nat) (current s : string) : list string :=
  match s with
  | "" => []
  | String c s =>
      if Ascii.eqb c "(" then groups (S depth) (current ++ "(") s
      else if Ascii.eqb c ")" then
        match depth with
        | 0 => []
        | 1 => (current ++ ")")%string :: groups 0 "" s
        | S d => groups d (current ++ ")") s
        end
      else match depth with 0 => groups 0 "" s | _ => groups depth (current ++ String c "") s end
  end.
Definition read_state (text : string) : list string := match text with String _ s => groups 0 "" s | "" => [] end.
(** Text with matching brackets, and such a text in brackets *)
Inductive balanced : string -> Prop :=
| ba_nil : balanced ""
| ba_char c s : c <> "("%char -> c <> ")"%char -> balanced s -> balanced (String c s)
| ba_pair a b : balanced a -> balanced b -> balanced ("(" ++ a ++ ")" ++ b).
Definition group (s : string) : Prop := exists a, balanced a /\ s = ("(" ++ a ++ ")")%string.

(** ** Reading a file of trajectories: for every plan its tasks and its states, which must be numbered one after another *)
Definition after (start line : string) : option string :=
  if String.prefix start line then Some (String.substring (String.length start) (String.length line - String.length start) line) else None.
Fixpoint read_tasks (i : nat) (lines : list string) : list string * list string :=
  match lines with
  | [] => ([], [])
  | l :: ls => match after ("[" ++ decimal i ++ ", " ++ decimal (S i) ++ "]: ") l with
               | Some t => let (ts, rest) := read_tasks (S i) ls in (t :: ts, rest)
               | None => ([], lines)
               end
  end.
Fixpoint read_states (i : nat) (lines : list string) : list string * list string :=
  match lines with
  | blank :: l :: ls =>
      if String.eqb blank "" then
        match after ("[" ++ decimal i ++ "]: ") l with
        | Some t => let (ts, rest) := read_states (S i) ls in (t :: ts, rest)
        | None => ([], lines)
        end
      else ([], lines)
  | _ => ([], lines)
  end.
Definition expect (expected lines : list string) : option (list string) :=
  if list_eq_dec string_dec (firstn (length expected) lines) expected then Some (skipn (length expected) lines) else None.
Definition read_plan (lines : list string) : option ((list string * list string) * list string) :=
  match expect ["New plan!!!"; ""; "##Tasks##"] lines with
  | None => None
  | Some lines =>
      let (tasks, lines) := read_tasks 0 lines in
      match expect [""; ""; "##States##"] lines with
      | None => None
      | Some lines => let (states, lines) := read_states 0 lines in Some ((tasks, states), lines)
      end
  end.
Fixpoint read_more (fuel : nat) (lines : list string) : option (list (list string * list string)) :=
  match fuel with
  | 0 => None
  | S fuel =>
      match read_plan lines with
      | None => None
      | Some (plan, []) => Some [plan]
      | Some (plan, rest) => match expect [""] rest with
                             | None => None
                             | Some rest => match read_more fuel rest with Some plans => Some (plan :: plans) | None => None end
                             end
      end
  end.
Definition read_file (lines : list string) : option (list (list string * list string)) :=
  match lines with [] => Some [] | _ => read_more (length lines) lines end.

Section Spec.
Variables literal fluent call state domain problem : Type.
Variables (is_positive : literal -> bool) (shown : literal -> string).
Variables (fluent_text : fluent -> string) (fluents_of : state -> list fluent) (snapshot : state -> list literal).
Variable typed_call : domain -> problem -> call -> res string.
Variables (parse_problem : domain -> content -> res problem) (parse_trajectory : domain -> problem -> content -> res (list (state * call * state))).

(** Every literal and every fluent is shown as a group. *)
Definition shown_as_groups : Prop := (forall l, group (shown l)) /\ (forall f, group (fluent_text f)).
(** Texts that differ by more than the case of letters *)
Definition distinct_texts : Prop :=
  (forall l l', upper (shown l) = upper (shown l') -> shown l = shown l') /\ (forall l f, upper (shown l) <> upper (fluent_text f)).

Definition state_text (s : state) : string := create_complete_state literal fluent is_positive shown fluent_text (snapshot s) (fluents_of s).
(** The tasks are the calls, and the states are the state before the first task and the state after each task. *)
Definition described (d : domain) (p : problem) (components : list (state * call * state)) (plan : list string * list string) : Prop :=
  Forall2 (fun c task => exists op, typed_call d p (snd (fst c)) = Ok op /\ task = upper op) components (fst plan) /\
  (length (snd plan) = match components with [] => 0 | _ => S (length components) end) /\
  (forall prev a next, nth_error components 0 = Some (prev, a, next) -> nth_error (snd plan) 0 = Some (state_text prev)) /\
  (forall k prev a next, nth_error components k = Some (prev, a, next) -> nth_error (snd plan) (S k) = Some (state_text next)).
Definition continuous (components : list (state * call * state)) : Prop :=
  forall k c c', nth_error components k = Some c -> nth_error components (S k) = Some c' -> fst (fst c') = snd c.

(** A plan of the file is a trajectory of the directory. *)
Definition from_directory (d : domain) (files : string -> option content) (stem : string) (plan : list string * list string) : Prop :=
  exists pt p tt components,
    files (stem ++ ".pddl")%string = Some pt /\ parse_problem d pt = Ok p /\
    files (stem ++ ".trajectory")%string = Some tt /\ parse_trajectory d p tt = Ok components /\ described d p components plan.
(** Every trajectory of the directory can be read. *)
Definition readable (d : domain) (files : string -> option content) : Prop :=
  forall stem tt, files (stem ++ ".trajectory")%string = Some tt ->
    exists pt p components, files (stem ++ ".pddl")%string = Some pt /\ parse_problem d pt = Ok p /\ parse_trajectory d p tt = Ok components /\
      forall c, In c components -> exists op, typed_call d p (snd (fst c)) = Ok op.
End Spec.

(** ** PlanMiner *)
Section Run.
Variables action requirements : Type.
Notation mined_domain := (mined_domain action requirements).
Variables (parse : content -> res mined_domain) (to_pddl : mined_domain -> content).
(** The domain and whether it is reported as learned, and the domain file that the test set gets, from what PlanMiner leaves *)
Inductive judged (r : mined_domain) (old : option content) : option content -> mined_domain -> bool -> option content -> Prop :=
| ju_nothing d : md_name _ _ d = md_name _ _ r -> md_requirements _ _ d = md_requirements _ _ r -> md_actions _ _ d = [] -> md_rest _ _ d = md_rest _ _ r ->
    judged r old None d false old
| ju_unreadable text e d : parse text = Err e ->
    md_name _ _ d = md_name _ _ r -> md_requirements _ _ d = md_requirements _ _ r -> md_actions _ _ d = [] -> md_rest _ _ d = md_rest _ _ r ->
    judged r old (Some text) d true (Some (to_pddl d))
| ju_learned text l d : parse text = Ok l ->
    md_name _ _ d = md_name _ _ r -> md_requirements _ _ d = md_requirements _ _ r -> md_actions _ _ d = md_actions _ _ l -> md_rest _ _ d = md_rest _ _ l ->
    judged r old (Some text) d true (Some (to_pddl d)).
End Run.
