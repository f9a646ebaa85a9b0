(** * PlanMiner

    Model of trajectory_creators/plan_miner_trajectories_creator.py and of the part of
    experiments/concurrent_execution/parallel_numeric_experiment_runner.py that runs PlanMiner.
    A file is the list of its lines (as in SolverModel.v): the texts of states and actions contain no line break.
    The parsers and exporters of pddl_plus_parser and PlanMiner itself are variables.  Logging, the renaming of parameters (part of [convert]),
    the preparation of the performance evaluation and of the statistics, and the measured time are left out. *)
From Coq Require Import Ascii.
From Verif Require Export TextModel.
From Verif Require Export GenModel.
From Verif Require Import Prelude.
Open Scope string_scope. Open Scope list_scope. Open Scope nat_scope.

(** [str.upper] on ASCII *)
Definition upper_char (c : ascii) : ascii :=
  let n := nat_of_ascii c in if (97 <=? n) && (n <=? 122) then ascii_of_nat (n - 32) else c.
Fixpoint upper (s : string) : string := match s with "" => "" | String c s' => String (upper_char c) (upper s') end.
(** [name.split('.')[0]] *)
Fixpoint first_part (name : string) : string :=
  match name with "" => "" | String c s => if Ascii.eqb c "." then "" else String c (first_part s) end.
(** [sep.join(texts)] with one or two line breaks, as lines *)
Fixpoint spaced (texts : list (list string)) : list string :=
  match texts with [] => [] | [t] => t | t :: texts => t ++ [""] ++ spaced texts end.

Section Pmt.
Variables literal fluent call state domain problem : Type.
(** A literal of a state: its sign, and the text of its positive form ([str] of the grounded predicate) *)
Variables (is_positive : literal -> bool) (shown : literal -> string).
(** [function.state_typed_representation]; the fluents of a state *)
Variables (fluent_text : fluent -> string) (fluents_of : state -> list fluent).
(** [create_discrete_state_snapshot(state, objects)] in the order of the iteration over the set *)
Variable snapshot : state -> list literal.
(** [Operator(domain.actions[action.name], ...).typed_action_call] *)
Variable typed_call : domain -> problem -> call -> res string.
(** The parsers; [convert]: the domain with renamed parameters; [exported]: the text of a domain *)
Variables (parse_domain : content -> res domain) (parse_problem : domain -> content -> res problem).
Variable parse_trajectory : domain -> problem -> content -> res (list (state * call * state)).
Variables (convert : domain -> domain) (exported : domain -> content).

(** plan_miner_trajectories_creator.py 58-76 [create_complete_state] *)
Definition create_complete_state (predicates : list literal) (functions : list fluent) : string :=
  let positive := map (fun l => upper (shown l)) (filter is_positive predicates) in
  let negative := map (fun l => "(not " ++ upper (shown l) ++ ")")%string (filter (fun l => negb (is_positive l)) predicates) in
  let functions := map (fun f => upper (fluent_text f)) functions in
  ("(" ++ String.concat " " positive ++ " " ++ String.concat " " functions ++ " " ++ String.concat " " negative ++ ")")%string.

(** 96-116: the lines of the tasks and of the states from the [index]-th step on *)
Fixpoint sequences (d : domain) (p : problem) (index : nat) (components : list (state * call * state)) : res (list string * list string) :=
  match components with
  | [] => Ok ([], [])
  | (prev, a, next) :: components =>
      let* op := typed_call d p a in
      let* (tasks, states) := sequences d p (index + 1) components in
      let task := ("[" ++ decimal index ++ ", " ++ decimal (index + 1) ++ "]: " ++ upper op)%string in
      let first := if index =? 0 then [("[" ++ decimal index ++ "]: " ++ create_complete_state (snapshot prev) (fluents_of prev))%string] else [] in
      let second := ("[" ++ decimal (index + 1) ++ "]: " ++ create_complete_state (snapshot next) (fluents_of next))%string in
      Ok (task :: tasks, first ++ second :: states)
  end.
(** 94-95, 118-120: the text of one trajectory *)
Definition plan_text (d : domain) (p : problem) (components : list (state * call * state)) : res (list string) :=
  let* (tasks, states) := sequences d p 0 components in
  let action_trace := "##Tasks##" :: tasks in
  let state_trace := spaced (map (fun s => [s]) ("##States##" :: states)) in
  Ok (["New plan!!!"; ""] ++ action_trace ++ [""; ""] ++ state_trace).
(** 90-121 *)
Definition convert_trajectory (d : domain) (dir : path) (m : machine) (stem : string) : res (list string) :=
  let* text := read m (pddl_of dir stem) in
  let* p := parse_problem d text in
  let* text := read m (trajectory_of dir stem) in
  let* components := parse_trajectory d p text in
  plan_text d p components.

Definition plan_miner_domain (domain_file_name : string) : string := (first_part domain_file_name ++ "_plan_miner.pddl")%string.
Definition pts : string := "plan_miner_trajectories.pts".
(** 78-124 [create_plan_miner_trajectories] *)
Definition create_plan_miner_trajectories (domain_file_name : string) (dir : path) (m : machine) : res machine :=
  let* text := read m (join dir domain_file_name) in
  let* d := parse_domain text in
  let d := convert d in
  let m := put m (join dir (plan_miner_domain domain_file_name)) (Some (exported d)) in
  match file_at m (join dir pts) with
  | Some _ => Ok m
  | None =>
      let* trajectories := map_res (convert_trajectory d dir m) (glob m dir ".trajectory") in
      Ok (put m (join dir pts) (Some (spaced trajectories)))
  end.
End Pmt.

(** ** The run of PlanMiner: parallel_numeric_experiment_runner.py *)
Section Run.
Variables action requirements : Type.
Record mined_domain := mk_mined { md_name : string; md_requirements : requirements; md_actions : list (string * action); md_rest : content }.
(** [DomainParser(path).parse_domain()], the same with [partial_parsing=True], [domain.to_pddl()] *)
Variables (parse parse_partial : content -> res mined_domain) (to_pddl : mined_domain -> content).
(** The directories; the [i]-th PlanMiner, given the text of its trajectories: how it ends, and the file that it leaves; [uuid.uuid4()] *)
Variables (directory : list string -> bool) (miner : nat -> option content -> ending * option content) (uuid : nat -> string).
Variables (PLAN_MINER_DIR_PATH workdir : path) (domain_file_name : string).

(** 93, 106, 120-122: the reference domain; 94: without actions *)
Definition reference (m : machine) : res mined_domain :=
  let* text := read m (join workdir (plan_miner_domain domain_file_name)) in parse_partial text.
Definition without_actions (d : mined_domain) : mined_domain := mk_mined (md_name d) (md_requirements d) [] (md_rest d).

(** 97-128 [_create_learned_domain_for_evaluation]: lines 110-114 assign what is there already. *)
Definition create_learned_domain (m : machine) (output : path) : res (machine * mined_domain) :=
  let* learned :=
    match (let* text := read m output in
           let* d := parse text in
           let* r := reference m in
           Ok (mk_mined (md_name r) (md_requirements r) (md_actions d) (md_rest d))) with
    | Ok d => Ok d
    | Err _ => let* r := reference m in Ok (without_actions r)
    end in
  Ok (put m output (Some (to_pddl learned)), learned).

(** 130-158 [_run_plan_miner_process]: nothing depends on how the process ends ([wait] does not raise for an exit code). *)
Definition run_plan_miner_process (m : machine) (trajectories : path) : res (machine * option path) :=
  let name := (first_part domain_file_name ++ "_" ++ uuid (m_runs m) ++ ".pddl")%string in
  let* m := chdir directory m PLAN_MINER_DIR_PATH in
  let '(_, written) := miner (m_runs m) (file_at m trajectories) in
  let m := match written with Some text => put (started m) (Rel [name]) (Some text) | None => started m end in
  let output := join PLAN_MINER_DIR_PATH name in
  match file_at m output with
  | Some _ => Ok (m, Some output)
  | None => Ok (m, None)
  end.

(** [shutil.move(source, target)] *)
Definition move (m : machine) (source target : path) : res machine :=
  let* text := read m source in Ok (put (put m source None) target (Some text)).
(** 160-193 [_apply_plan_miner] after the trajectories were created; the report: the time is measured, or it is -1 *)
Definition apply_plan_miner (m : machine) (test_set_dir : path) : res (machine * (mined_domain * bool)) :=
  let* (m, output) := run_plan_miner_process m (join workdir pts) in
  match output with
  | None => let* r := reference m in Ok (m, (without_actions r, false))
  | Some output =>
      let* (m, learned) := create_learned_domain m output in
      let* m := move m output (join test_set_dir domain_file_name) in
      Ok (m, (learned, true))
  end.
End Run.
