(** * What a random walk is *)
From Verif Require Export WalkModel.
Open Scope string_scope. Open Scope list_scope. Open Scope nat_scope.

Section Spec.
Variables (state : Type) (applicable : call -> state -> bool) (apply : call -> state -> state).

(** A transition that a world with these operators shows: the effect of an applicable action, or nothing. *)
Inductive real_step (s : state) (c : call) : state -> Prop :=
| did : applicable c s = true -> real_step s c (apply c s)
| did_not : applicable c s = false -> real_step s c s.

(** One step of the walk: an applicable action with its effect when one is wanted; otherwise an inapplicable action, if there is
    one, and no change. *)
Definition walked (actions : list call) (inapplicable_wanted : bool) (t : triplet state) : Prop :=
  let '(s, c, s') := t in In c actions /\
  if inapplicable_wanted then s' = s /\ (applicable c s = false \/ forall b, In b actions -> applicable b s = true)
  else applicable c s = true /\ s' = apply c s.

(** Every step starts where the previous one ended. *)
Fixpoint chained (s : state) (ts : list (triplet state)) (last : state) : Prop :=
  match ts with
  | [] => s = last
  | (s1, _, s2) :: ts => s1 = s /\ chained s2 ts last
  end.

(** The whole walk: it stops early only where an applicable action was wanted and there is none. *)
Definition random_walk (wants : nat -> bool) (limit draw : nat) (init : state) (actions : list call) (ts : list (triplet state)) : Prop :=
  length ts <= limit /\ (forall i t, nth_error ts i = Some t -> walked actions (wants (draw + 2 * i)) t) /\
  exists last, chained init ts last /\
    (length ts < limit -> wants (draw + 2 * length ts) = false /\ forall b, In b actions -> applicable b last = false).

Definition shuffling (shuffle : nat -> list call -> list call) : Prop := forall i l, Permutation l (shuffle i l).

(** An action that can be grounded and whose numeric fluents all have a value at the start. *)
Definition legal (precondition_fluents : call -> list string) (effect_fluents : call -> list (list string)) (objects : list pobject) (dom : domain) (fluents : list string) (c : call) : Prop :=
  (exists a, In (c_name c, a) (d_actions dom) /\
     Forall2 (fun o p => exists t, In (o, t) (objects ++ d_consts dom) /\ is_sub_type t (snd p) = true) (c_params c) (a_sig a)) /\
  incl (precondition_fluents c) fluents /\ forall l, In l (effect_fluents c) -> incl l fluents.

(** The three files written for a problem. *)
Definition walk_files (show : call -> string) (wants : nat -> bool) (limit : nat) (actions_of : walk_problem state -> list call)
  (out : files state) (stem : string) (p : walk_problem state) : Prop :=
  let rw := (stem ++ "_random_walk")%string in
  exists draw ts, random_walk wants limit draw (wp_init _ p) (actions_of p) ts /\
    dict_get out (rw, "solution") = Some (TPlan _ (map (fun t => show (snd (fst t))) ts)) /\
    dict_get out (rw, "pddl") = Some (TProblem _ p) /\ dict_get out (rw, "trajectory") = Some (TTrajectory _ ts).
End Spec.

(** The problems asked for: those whose name starts with the prefix. *)
Definition listed {state : Type} (prefix : string) (work : files state) (stem : string) : Prop :=
  (exists rest, stem = (prefix ++ rest)%string) /\ In (stem, "pddl") (map fst work).
(** Any file but the three of each of these problems. *)
Definition elsewhere (asked : string -> Prop) (f : file) : Prop :=
  forall stem ext, asked stem -> f = ((stem ++ "_random_walk")%string, ext) -> ~ In ext ["solution"; "pddl"; "trajectory"].
