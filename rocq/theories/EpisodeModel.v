(** * Recording online learning episodes

    Model of sam_learning/core/online_learning/episode_info_recorder.py. *)
From Verif Require Export Prelude TextModel.
From Coq Require Export QArith.
Open Scope string_scope. Open Scope list_scope. Open Scope nat_scope.

(** episode_info_recorder.py 13-27 *)
Definition RECORD_COLUMNS := ["fold_number"; "algorithm_type"; "problem_name"; "num_grounded_actions"; "exploration_time"; "model_load_time";
  "sum_failed_actions"; "sum_successful_actions"; "goal_reached"; "num_steps_in_episode"; "solver_solved_problem";
  "safe_model_solution_status"; "optimistic_model_solution_status"].

Definition success_key (a : string) : string := ("num_" ++ a ++ "_success")%string.
Definition fail_key (a : string) : string := ("num_" ++ a ++ "_fail")%string.
Definition discrete_key (a : string) : string := ("num_failed_due_to_discrete_condition_" ++ a)%string.
Definition numeric_key (a : string) : string := ("num_failed_due_to_numeric_condition_" ++ a)%string.
Definition unknown_key (a : string) : string := ("num_unknown_failed_transitions_" ++ a)%string.

Section Recorder.
(** States of the environment and action calls. *)
Variables (wstate call : Type) (call_name : call -> string).
(** The largest number of steps in one file (5000). *)
Variable MAX_STEPS_IN_FILE : nat.

(** One component of the recorded trajectory. *)
Record step := mk_step { s_prev : wstate; s_call : call; s_next : wstate; s_ok : bool }.

(** An exported file: its name, the first state, then operator, transition status and next state of every step (208-223). *)
Record file := mk_file { f_name : string; f_first : wstate; f_body : list (call * bool * wstate) }.

Inductive cell := CNat (n : nat) | CText (s : string) | CBool (b : bool) | CNum (q : Q).
Definition row := list (string * cell).

Record recorder := mk_rec {
  r_episode : nat; r_info : list (string * nat); r_rows : list row; r_traj : list step;
  r_history : list (string * nat); r_paths : list string; r_files : list file; r_load : Q }.

(** 40-77 *)
Definition init_info (names : list string) : list (string * nat) :=
  dict_of (map (fun k => (k, 0)) (RECORD_COLUMNS ++ map success_key names ++ map fail_key names ++ map discrete_key names
           ++ map numeric_key names ++ map unknown_key names)).
Definition new_recorder (names : list string) : recorder :=
  mk_rec 1 (init_info names) [] [] (dict_of (map (fun a => (success_key a, 0)) names)) [] [] (-1)%Q.

(** [d[k] += 1] *)
Definition plus_one (d : list (string * nat)) (k : string) : res (list (string * nat)) :=
  match dict_get d k with Some n => Ok (dict_set d k (n + 1)) | None => Err KeyError end.

(** 84-85 *)
Definition get_number_successful_action_executions (r : recorder) (a : string) : res nat :=
  match dict_get (r_history r) (success_key a) with Some n => Ok n | None => Err KeyError end.

Definition set_info (r : recorder) (i : list (string * nat)) : recorder :=
  mk_rec (r_episode r) i (r_rows r) (r_traj r) (r_history r) (r_paths r) (r_files r) (r_load r).

(** 87-92 *)
Definition add_num_grounded_actions (r : recorder) (n : nat) : recorder := set_info r (dict_set (r_info r) "num_grounded_actions" n).
(** 94-99 *)
Definition add_model_loading_time (r : recorder) (t : Q) : recorder :=
  mk_rec (r_episode r) (r_info r) (r_rows r) (r_traj r) (r_history r) (r_paths r) (r_files r) t.

(** 101-117 *)
Definition record_failure_reason (r : recorder) (a reason : string) : res recorder :=
  if Prelude.eqb reason "discrete" then let* i := plus_one (r_info r) (discrete_key a) in Ok (set_info r i)
  else if Prelude.eqb reason "numeric" then let* i := plus_one (r_info r) (numeric_key a) in Ok (set_info r i)
  else if Prelude.eqb reason "unknown" then let* i := plus_one (r_info r) (unknown_key a) in Ok (set_info r i)
  else Err ValueError.

(** 119-145 *)
Definition record_single_step (r : recorder) (c : call) (ok : bool) (prev next : wstate) : res recorder :=
  let traj := r_traj r ++ [mk_step prev c next ok] in
  if ok then
    let* i := plus_one (r_info r) (success_key (call_name c)) in
    let* i := plus_one i "sum_successful_actions" in
    let* h := plus_one (r_history r) (success_key (call_name c)) in
    Ok (mk_rec (r_episode r) i (r_rows r) traj h (r_paths r) (r_files r) (r_load r))
  else
    let* i := plus_one (r_info r) (fail_key (call_name c)) in
    let* i := plus_one i "sum_failed_actions" in
    Ok (mk_rec (r_episode r) i (r_rows r) traj (r_history r) (r_paths r) (r_files r) (r_load r)).

(** [components[i : i + MAX]] for [i] in [range(0, len, MAX)]; [fuel] bounds the number of slices. *)
Fixpoint slices (fuel : nat) (l : list step) : list (list step) :=
  match fuel, l with
  | S fuel, _ :: _ => firstn MAX_STEPS_IN_FILE l :: slices fuel (skipn MAX_STEPS_IN_FILE l)
  | _, _ => []
  end.
(** 226-229 *)
Definition file_path (problem : string) (episode part : nat) : string :=
  ("trajectory_" ++ problem ++ "_episode_" ++ decimal episode ++ "_part_" ++ decimal part ++ ".trajectory")%string.
Definition render (name : string) (l : list step) : list file :=
  match l with
  | [] => []
  | s :: _ => [mk_file name (s_prev s) (map (fun c => (s_call c, s_ok c, s_next c)) l)]
  end.
(** 196-234 (not in test mode); writing a file replaces one of the same name *)
Definition write_file (fs : list file) (f : file) : list file :=
  filter (fun g => negb (Prelude.eqb (f_name g) (f_name f))) fs ++ [f].
Definition export_episode_trajectory (r : recorder) (problem : string) : recorder :=
  let parts := slices (length (r_traj r)) (r_traj r) in
  let files := flat_map (fun p => render (file_path problem (r_episode r) (fst p)) (snd p)) (combine (seq 0 (length parts)) parts) in
  mk_rec (r_episode r) (r_info r) (r_rows r) (r_traj r) (r_history r) (r_paths r ++ map f_name files)
         (fold_left write_file files (r_files r)) (r_load r).

Record ending := mk_end { e_problem : string; e_goal : bool; e_solver : bool; e_safe : string; e_optimistic : string; e_time : Q; e_export : bool }.

(** 147-187.  The two columns that are the same in all rows (algorithm and fold) are left out. *)
Definition end_episode (r : recorder) (e : ending) : res recorder :=
  match dict_get (r_info r) "sum_successful_actions", dict_get (r_info r) "sum_failed_actions" with
  | Some s, Some f =>
      let row : row := dict_of (("episode_number", CNat (r_episode r)) :: map (fun kv => (fst kv, CNat (snd kv))) (r_info r)
        ++ [("goal_reached", CBool (e_goal e)); ("problem_name", CText (e_problem e)); ("num_steps_in_episode", CNat (s + f));
            ("solver_solved_problem", CBool (e_solver e)); ("safe_model_solution_status", CText (e_safe e));
            ("optimistic_model_solution_status", CText (e_optimistic e)); ("exploration_time", CNum (e_time e));
            ("model_load_time", CNum (r_load r))]) in
      let r' := mk_rec (r_episode r + 1) (map (fun kv => (fst kv, 0)) (r_info r)) (r_rows r ++ [row]) (r_traj r) (r_history r)
                       (r_paths r) (r_files r) (-1)%Q in
      Ok (if e_export e then export_episode_trajectory r' (e_problem e) else r')
  | _, _ => Err KeyError
  end.

(** 236-242 *)
Definition clear_trajectory (r : recorder) : recorder :=
  mk_rec (r_episode r) (r_info r) (r_rows r) [] (r_history r) (r_paths r) (r_files r) (r_load r).
Definition clear_paths (r : recorder) : recorder :=
  mk_rec (r_episode r) (r_info r) (r_rows r) (r_traj r) (r_history r) [] (r_files r) (r_load r).

(** The calls of a user. *)
Inductive op :=
| Grounded (n : nat) | Loading (t : Q) | Failure (a reason : string) | Step (c : call) (ok : bool) (prev next : wstate)
| End (e : ending) | ClearTrajectory | ClearPaths.
Definition do_op (r : recorder) (o : op) : res recorder :=
  match o with
  | Grounded n => Ok (add_num_grounded_actions r n)
  | Loading t => Ok (add_model_loading_time r t)
  | Failure a reason => record_failure_reason r a reason
  | Step c ok prev next => record_single_step r c ok prev next
  | End e => end_episode r e
  | ClearTrajectory => Ok (clear_trajectory r)
  | ClearPaths => Ok (clear_paths r)
  end.
Definition run (names : list string) (os : list op) : res recorder := fold_res do_op os (new_recorder names).
End Recorder.
