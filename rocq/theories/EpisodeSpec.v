(** * What the recorder should remember: counting over the calls made so far *)
From Verif Require Export EpisodeModel.
Open Scope string_scope. Open Scope list_scope. Open Scope nat_scope.

(** Action names that cannot be confused with the names of other columns. *)
Definition plain_name (a : string) : Prop := prefix "failed_due_to_" a = false /\ prefix "unknown_failed_" a = false.

Section Spec.
Variables (wstate call : Type) (nm : call -> string).
Notation op := (op wstate call).
Notation step := (step wstate call).

(** The finished episodes, each with its calls and its end, and the calls of the episode that is going on. *)
Definition episodes (os : list op) : list (list op * ending) * list op :=
  fold_left (fun (acc : list (list op * ending) * list op) o =>
    match o with End _ _ e => (fst acc ++ [(snd acc, e)], []) | _ => (fst acc, snd acc ++ [o]) end) os ([], []).

Definition count (f : op -> bool) (os : list op) : nat := length (filter f os).
Definition succeeded (a : string) (o : op) : bool := match o with Step _ _ c true _ _ => Prelude.eqb (nm c) a | _ => false end.
Definition failed (a : string) (o : op) : bool := match o with Step _ _ c false _ _ => Prelude.eqb (nm c) a | _ => false end.
Definition any_success (o : op) : bool := match o with Step _ _ _ true _ _ => true | _ => false end.
Definition any_failure (o : op) : bool := match o with Step _ _ _ false _ _ => true | _ => false end.
Definition any_step (o : op) : bool := match o with Step _ _ _ _ _ _ => true | _ => false end.
Definition because (a reason : string) (o : op) : bool := match o with Failure _ _ a' r => Prelude.eqb a' a && Prelude.eqb r reason | _ => false end.
Definition grounded (os : list op) : nat := fold_left (fun n o => match o with Grounded _ _ k => k | _ => n end) os 0.
Definition loading (os : list op) : Q := fold_left (fun t o => match o with Loading _ _ x => x | _ => t end) os (-1)%Q.

(** The calls only mention actions of the domain and the three reasons. *)
Definition legal (names : list string) (o : op) : Prop :=
  match o with
  | Step _ _ c _ _ _ => In (nm c) names
  | Failure _ _ a r => In a names /\ In r ["discrete"; "numeric"; "unknown"]
  | _ => True
  end.

(** What is counted in an episode with the calls [os]. *)
Definition counts_of (names : list string) (os : list op) (get : string -> option nat) : Prop :=
  (forall a, In a names ->
     get ("num_" ++ a ++ "_success")%string = Some (count (succeeded a) os) /\
     get ("num_" ++ a ++ "_fail")%string = Some (count (failed a) os) /\
     get ("num_failed_due_to_discrete_condition_" ++ a)%string = Some (count (because a "discrete") os) /\
     get ("num_failed_due_to_numeric_condition_" ++ a)%string = Some (count (because a "numeric") os) /\
     get ("num_unknown_failed_transitions_" ++ a)%string = Some (count (because a "unknown") os)) /\
  get "sum_successful_actions" = Some (count any_success os) /\ get "sum_failed_actions" = Some (count any_failure os) /\
  get "num_grounded_actions" = Some (grounded os).

Definition nat_cell (c : option cell) : option nat := match c with Some (CNat n) => Some n | _ => None end.

(** The row of an episode. *)
Definition row_of (names : list string) (number : nat) (ep : list op * ending) (r : row) : Prop :=
  let '(os, e) := ep in
  counts_of names os (fun k => nat_cell (dict_get r k)) /\
  dict_get r "episode_number" = Some (CNat number) /\
  dict_get r "num_steps_in_episode" = Some (CNat (count any_step os)) /\
  dict_get r "goal_reached" = Some (CBool (e_goal e)) /\ dict_get r "problem_name" = Some (CText (e_problem e)) /\
  dict_get r "solver_solved_problem" = Some (CBool (e_solver e)) /\
  dict_get r "safe_model_solution_status" = Some (CText (e_safe e)) /\
  dict_get r "optimistic_model_solution_status" = Some (CText (e_optimistic e)) /\
  dict_get r "exploration_time" = Some (CNum (e_time e)) /\ dict_get r "model_load_time" = Some (CNum (loading os)).

(** [P] holds of the corresponding elements, numbered from [n]. *)
Fixpoint numbered {A B} (P : nat -> A -> B -> Prop) (n : nat) (l : list A) (l' : list B) : Prop :=
  match l, l' with
  | [], [] => True
  | x :: l, y :: l' => P n x y /\ numbered P (n + 1) l l'
  | _, _ => False
  end.

(** ** Trajectories *)

(** The steps recorded since the trajectory was last cleared. *)
Definition recorded (os : list op) : list step :=
  fold_left (fun l o => match o with Step _ _ c ok p n => l ++ [mk_step _ _ p c n ok] | ClearTrajectory _ _ => [] | _ => l end) os [].

(** Consecutive steps share a state. *)
Fixpoint continuous (l : list step) : Prop :=
  match l with
  | x :: ((y :: _) as l') => s_next _ _ x = s_prev _ _ y /\ continuous l'
  | _ => True
  end.

(** The components a reader of the file sees: every operator with the states written before and after it. *)
Fixpoint read_body (s : wstate) (body : list (call * bool * wstate)) : list step :=
  match body with
  | [] => []
  | (c, ok, s') :: body => mk_step _ _ s c s' ok :: read_body s' body
  end.
Definition read_file (f : file wstate call) : list step := read_body (f_first _ _ f) (f_body _ _ f).

(** A list cut into pieces of [M]: none empty, all of length [M] except that the last may be shorter. *)
Fixpoint cut (M : nat) (l : list step) (parts : list (list step)) : Prop :=
  match parts with
  | [] => l = []
  | [p] => l = p /\ 0 < length p <= M
  | p :: parts => length p = M /\ 0 < M /\ exists l', l = p ++ l' /\ cut M l' parts
  end.

(** The files written for one trajectory. *)
Definition files_of (problem : string) (episode : nat) (parts : list (list step)) (fs : list (file wstate call)) : Prop :=
  numbered (fun i (p : list step) (f : file wstate call) =>
     f_name _ _ f = ("trajectory_" ++ problem ++ "_episode_" ++ decimal episode ++ "_part_" ++ decimal i ++ ".trajectory")%string /\
     (exists s rest, p = s :: rest /\ f_first _ _ f = s_prev _ _ s) /\
     f_body _ _ f = map (fun s => (s_call _ _ s, s_ok _ _ s, s_next _ _ s)) p) 0 parts fs.

(** The exports a run performs: problem, number in the file name, recorded steps. *)
Definition exports (os : list op) : list (string * nat * list step) :=
  flat_map (fun i => match nth_error os i with
                     | Some (End _ _ e) => if e_export e then [(e_problem e, 2 + length (fst (episodes (firstn i os))), recorded (firstn i os))] else []
                     | _ => [] end) (seq 0 (length os)).
(** What one export leaves on the disk: the trajectory in files of at most [M] steps, none empty. *)
Definition export_written (M : nat) (x : string * nat * list step) (fs : list (file wstate call)) : Prop :=
  exists parts, cut M (snd x) parts /\ files_of (fst (fst x)) (snd (fst x)) parts fs.
End Spec.
