(** * Random walks

    Model of trajectory_creators/random_walk_trajectories_creator.py.  Operators (their applicability, their effect, the
    numeric fluents in them and their text) are those of pddl_plus_parser and are variables here; so are the random numbers:
    the [i]-th use of the generator shuffles a list or decides whether an inapplicable action is wanted.  States are values:
    [State.copy] is the identity.  The actions of the walk are taken from the domain, so [domain.actions[name]] succeeds.
    Files are named by stem and suffix. *)
From Verif Require Export VocabModel.
Open Scope string_scope. Open Scope list_scope. Open Scope nat_scope.

Section Walk.
Variables (state : Type) (applicable : call -> state -> bool) (apply : call -> state -> state) (show : call -> string).
Variables (shuffle : nat -> list call -> list call) (wants_inapplicable : nat -> bool).

Definition triplet := (state * call * state)%type.

(** 52-64: the loop; [queue] is what is left to pop, the next one first *)
Fixpoint search_inapplicable (s : state) (c : call) (queue : list call) : call :=
  match queue with
  | [] => c
  | next :: queue' => if applicable c s then search_inapplicable s next queue' else c
  end.
(** 36-66.  [list.pop()] takes the last element and raises IndexError when there is none. *)
Definition select_inapplicable_action (draw : nat) (s : state) (ground_actions : list call) : res (call * state) :=
  match rev (shuffle draw ground_actions) with
  | [] => Err IndexError
  | c :: queue => Ok (search_inapplicable s c queue, s)
  end.

(** 83-91: the loop; with what is left in the queue *)
Fixpoint search_applicable (s : state) (c : call) (queue : list call) : call * list call :=
  match queue with
  | [] => (c, [])
  | next :: queue' => if negb (applicable c s) then search_applicable s next queue' else (c, queue)
  end.
(** 68-97 *)
Definition select_applicable_action (draw : nat) (s : state) (ground_actions : list call) : res (call * state) :=
  match rev (shuffle draw ground_actions) with
  | [] => Err IndexError
  | c :: queue =>
      let '(c, queue) := search_applicable s c queue in
      if (length queue =? 0) && negb (applicable c s) then Err ValueError else Ok (c, apply c s)
  end.

(** 113-134: [steps] rounds are left; two random choices a round *)
Fixpoint walk (steps : nat) (draw : nat) (s : state) (ground_actions : list call) : res (list triplet * list string * nat) :=
  match steps with
  | 0 => Ok ([], [], draw)
  | S steps =>
      if wants_inapplicable draw then
        let* (c, s') := select_inapplicable_action (draw + 1) s ground_actions in
        let* (triplets, plan, draw) := walk steps (draw + 2) s' ground_actions in
        Ok ((s, c, s') :: triplets, show c :: plan, draw)
      else
        match select_applicable_action (draw + 1) s ground_actions with
        | Ok (c, s') =>
            let* (triplets, plan, draw) := walk steps (draw + 2) s' ground_actions in
            Ok ((s, c, s') :: triplets, show c :: plan, draw)
        | Err ValueError => Ok ([], [], draw + 2)
        | Err e => Err e
        end
  end.

(** 17 *)
Variable MAX_NUM_STEPS_IN_TRAJECTORY : nat.
(** 99-134 *)
Definition create_random_plan (draw : nat) (init : state) (ground_actions : list call) : res (list triplet * list string * nat) :=
  walk MAX_NUM_STEPS_IN_TRAJECTORY draw init ground_actions.

(** The numeric fluents of a grounded action: in its preconditions, and in each of its effects. *)
Variables (precondition_fluents : call -> list string) (effect_fluents : call -> list (list string)).

(** 136-168 *)
Definition create_all_grounded_actions (objects : list pobject) (dom : domain) (initial_state_fluents : list string) : list call :=
  fold_left (fun legal c =>
               let grounded_effect_fluents := fold_left set_union (effect_fluents c) [] in
               if negb (subsetb (precondition_fluents c) (to_set initial_state_fluents) && subsetb grounded_effect_fluents (to_set initial_state_fluents))
               then legal else set_add c legal)
            (grounded_actions_vocabulary dom objects) [].

(** ** Files *)
Definition file := (string * string)%type.
(** What a problem file says: the objects, the initial state and its numeric fluents. *)
Record walk_problem := mk_wp { wp_objects : list pobject; wp_init : state; wp_fluents : list string }.
Inductive text := TProblem (p : walk_problem) | TPlan (plan : list string) | TTrajectory (triplets : list triplet) | TOther.
Definition files := list (file * text).

Definition walk_stem (stem : string) : string := (stem ++ "_random_walk")%string.
(** [glob(f"{prefix}*.pddl")] *)
Definition matching (prefix : string) (d : files) : list string :=
  map fst (filter (fun f => Prelude.eqb (snd f) "pddl" && String.prefix prefix (fst f)) (map fst d)).

(** 182-198: one problem; [out] is the output directory *)
Definition create_trajectory (dom : domain) (work : files) (so : nat * files) (stem : string) : res (nat * files) :=
  let '(draw, out) := so in
  if dict_mem (walk_stem stem, "trajectory") out then Ok so
  else match dict_get work (stem, "pddl") with
       | Some (TProblem p) =>
           let ground_actions := create_all_grounded_actions (wp_objects p) dom (wp_fluents p) in
           let* (triplets, plan, draw) := create_random_plan draw (wp_init p) ground_actions in
           let out := dict_set out (walk_stem stem, "solution") (TPlan plan) in
           let out := dict_set out (walk_stem stem, "pddl") (TProblem p) in
           Ok (draw, dict_set out (walk_stem stem, "trajectory") (TTrajectory triplets))
       | _ => Err ValueError
       end.
(** 170-198 with a separate output directory *)
Definition create_domain_trajectories_to (dom : domain) (prefix : string) (draw : nat) (work out : files) : res (nat * files) :=
  fold_res (create_trajectory dom work) (matching prefix work) (draw, out).
(** 170-198 in place: the names are listed before the first file is written *)
Definition create_domain_trajectories (dom : domain) (prefix : string) (draw : nat) (work : files) : res (nat * files) :=
  fold_res (fun dw stem => create_trajectory dom (snd dw) dw stem) (matching prefix work) (draw, work).
End Walk.
