(** * Multi-agent data sets

    Model of trajectory_creators/ma_shorted_experiments_trajectories_creator.py, trajectory_creators/ma_experiments_trajectories_creator.py
    and trajectory_creators/ma_common_functions.py 18-40.  The parsers, the converters of plans, domains and problems and the exporter of
    trajectories belong to pddl_plus_parser: they are variables that may raise.  What is written to a file is read back as it was. *)
From Coq Require Import Ascii.
From Verif Require Export DummyModel.
From Verif Require Import Prelude.
Open Scope string_scope. Open Scope list_scope. Open Scope nat_scope.

Section InPlace.
Variables (pick_goal pick : nat -> list nat -> nat) (add delete : nat -> bool).
Variable agent_names : list string.
(** ma_common_functions.py 85-105: what the loop leaves in the caller's plan, whose joint actions it changes *)
Fixpoint change_loop (last : nat) (index : nat) (plan : list joint) : res (list joint) :=
  match plan with
  | [] => Ok []
  | j :: plan =>
      if last <=? index then let* rest := change_loop last (index + 1) plan in Ok (j :: rest)
      else if negb (add index) then let* rest := change_loop last (index + 1) plan in Ok (j :: rest)
      else match find_empty_action_index (pick index) j with
           | None => let* rest := change_loop last (index + 1) plan in Ok (j :: rest)
           | Some i =>
               let* a := dummy agent_names (if delete index then DEL_PREDICATE_ACTION_NAME else ADD_PREDICATE_ACTION_NAME) i in
               let* rest := change_loop last (index + 1) plan in Ok (set_action j i a :: rest)
           end
  end.
(** ma_common_functions.py 57-107: the caller's plan after the call.  Both callers ignore the returned list. *)
Definition change_plan (plan : list joint) (dummy_in_goal : bool) : res (list joint) :=
  if dummy_in_goal then
    let* (last, plan) := add_for_goal pick_goal agent_names (length plan) plan in
    change_loop (match last with Some i => i | None => length plan - 1 end) 0 plan
  else change_loop (length plan - 1) 0 plan.
End InPlace.

(** The random choices for one problem: [randint(0, 1)] of ma_common_functions.py 36, and those of the insertion. *)
Record draws := mk_draws
  { dr_goal : bool; dr_pick_goal : nat -> list nat -> nat; dr_pick : nat -> list nat -> nat; dr_add : nat -> bool; dr_delete : nat -> bool }.

Definition DUMMY_PREDICATE := "(dummy-additional-predicate )".

(** [Path.stem]: the name up to its last dot, unless that is the first or the last character *)
Fixpoint last_dot (s : string) : option nat :=
  match s with
  | "" => None
  | String c s' => match last_dot s' with
                   | Some i => Some (S i)
                   | None => if Ascii.eqb c "." then Some 0 else None
                   end
  end.
Definition path_stem (name : string) : string :=
  match last_dot name with
  | Some i => if (0 <? i) && (i <? String.length name - 1) then String.substring 0 i name else name
  | None => name
  end.

Section Creators.
(** The states of a trajectory without the dummy predicate; text of problems and plans *)
Variables base text : Type.
(** A state: with whether the dummy predicate holds *)
Definition state := (base * bool)%type.
Record problem := mk_problem { p_init : state; p_goal : list string }.
(** Domains with and without the dummy actions *)
Inductive kind := vanilla | enhanced.
Definition triplet := (state * joint * state)%type.
Inductive content := FText (t : text) | FProblem (p : problem) | FPlan (p : list joint) | FTrajectory (t : list triplet).
Definition dir := list (string * content).

(** [ProblemParser(...).parse_problem()] *)
Variable parse_problem : kind -> text -> res problem.
(** [PlanConverter(ma_domain).convert_plan(...)] *)
Variable convert_plan : kind -> problem -> text -> res (list joint).
(** One step of [MultiAgentTrajectoryExporter(domain).parse_plan(...)] *)
Variable step : kind -> joint -> state -> res state.
Variable agent_names : list string.

(** [MultiAgentTrajectoryExporter.parse_plan]: the plan is executed from the initial state *)
Fixpoint triplets_of (k : kind) (plan : list joint) (s : state) : res (list triplet) :=
  match plan with
  | [] => Ok []
  | j :: plan => let* s' := step k j s in let* rest := triplets_of k plan s' in Ok ((s, j, s') :: rest)
  end.

(** ma_common_functions.py 30-40 [insert_dummy_predicate_to_goal] *)
Definition insert_dummy_predicate_to_goal (d : draws) (p : problem) : problem * bool :=
  if dr_goal d then (mk_problem (p_init p) (p_goal p ++ [DUMMY_PREDICATE]), true) else (p, false).
Definition insert_dummies (d : draws) (plan : list joint) (in_goal : bool) : res (list joint) :=
  change_plan (dr_pick_goal d) (dr_pick d) (dr_add d) (dr_delete d) agent_names plan in_goal.

Definition pddl (stem : string) : string := (stem ++ ".pddl")%string.
Definition solution (stem : string) : string := (stem ++ ".solution")%string.
Definition trajectory (stem : string) : string := (stem ++ ".trajectory")%string.

(** ** ma_shorted_experiments_trajectories_creator.py *)

(** A computation that may raise after it wrote files *)
Definition writes := (dir * option exc)%type.
(** [open(path)] of a file that must exist *)
Definition read_text (d : dir) (name : string) : res text :=
  match dict_get d name with Some (FText t) => Ok t | _ => Err KeyError end.

(** 25-58 [_create_multi_agent_trajectory] *)
Definition create_multi_agent_trajectory (d : draws) (problem_text plan_text : res text) (k : kind) (stem : string) (insert : bool) (out : dir) : writes :=
  match (let* t := problem_text in
         let* p := parse_problem k t in
         let* pt := plan_text in
         let* plan := convert_plan k p pt in
         if insert then
           let (p, added) := insert_dummy_predicate_to_goal d p in
           let* plan := insert_dummies d plan added in
           Ok (p, plan)
         else Ok (p, plan)) with
  | Err e => (out, Some e)
  | Ok (p, plan) =>
      let out := dict_set out (pddl stem) (FProblem p) in
      let out := dict_set out (solution stem) (FPlan plan) in
      match triplets_of k plan (p_init p) with
      | Err e => (out, Some e)
      | Ok triplets => (dict_set out (trajectory stem) (FTrajectory triplets), None)
      end
  end.

(** The two directories *)
Record outputs := mk_out { o_enhanced : dir; o_vanilla : dir }.
Definition is_ValueError (e : exc) : bool := match e with ValueError => true | _ => false end.

(** 75-104: one solution file *)
Definition create_pair (rd : string -> draws) (work : dir) (o : outputs) (stem : string) : res outputs :=
  if dict_mem (trajectory stem) (o_enhanced o) && dict_mem (trajectory stem) (o_vanilla o) then Ok o
  else
    let problem_text := read_text work (pddl stem) in
    let plan_text := read_text work (solution stem) in
    match create_multi_agent_trajectory (rd stem) problem_text plan_text enhanced stem true (o_enhanced o) with
    | (e, Some x) => if is_ValueError x then Ok (mk_out e (o_vanilla o)) else Err x
    | (e, None) =>
        match create_multi_agent_trajectory (rd stem) problem_text plan_text vanilla stem false (o_vanilla o) with
        | (v, Some x) => if is_ValueError x then Ok (mk_out e v) else Err x
        | (v, None) => Ok (mk_out e v)
        end
    end.

(** [glob("*.solution")]: the stems, in any order.  (A file called ".solution" alone, whose [Path.stem] is its whole name, is left out of account.) *)
Definition solution_stems (work : dir) : list string :=
  flat_map (fun name => let n := String.length name - 9 in
                        if String.eqb (String.substring n 9 name) ".solution" then [String.substring 0 n name] else []) (dict_keys work).

(** 60-108 [create_domain_trajectories]; the domains are the texts of the two files *)
Definition create_domain_trajectories (rd : string -> draws) (work : dir) (vanilla_domain enhanced_domain : string * text) (o : outputs) : res outputs :=
  let* o := fold_res (create_pair rd work) (solution_stems work) o in
  Ok (mk_out (dict_set (o_enhanced o) (fst enhanced_domain) (FText (snd enhanced_domain)))
             (dict_set (o_vanilla o) (fst vanilla_domain) (FText (snd vanilla_domain)))).

(** ** ma_experiments_trajectories_creator.py *)

(** [MultiAgentProblemsConverter(...).combine_problems(...)] of a folder, with the domain without dummy actions *)
Variable combine_problems : string -> res problem.
(** [plans_directory / f"{planner_prefix}_{stem}" / "Plan.txt"] *)
Variable plan_of : string -> res text.

(** 65-91: one folder *)
Definition create_folder (rd : string -> draws) (o : outputs) (folder : string) : res outputs :=
  let stem := path_stem folder in
  let* p := combine_problems folder in
  let regular := dict_set (o_vanilla o) (pddl stem) (FProblem p) in
  let* pt := plan_of stem in
  let* plan := convert_plan enhanced p pt in
  let regular := dict_set regular (solution stem) (FPlan plan) in
  let (p', added) := insert_dummy_predicate_to_goal (rd folder) p in
  let enh := dict_set (o_enhanced o) (pddl stem) (FProblem p') in
  let* plan' := insert_dummies (rd folder) plan added in
  let enh := dict_set enh (solution stem) (FPlan plan') in
  let* ts := triplets_of enhanced plan (p_init p') in
  let regular := dict_set regular (trajectory stem) (FTrajectory ts) in
  let* ts' := triplets_of enhanced plan' (p_init p') in
  Ok (mk_out (dict_set enh (trajectory stem) (FTrajectory ts')) regular).

(** 45-91 [create_domain_trajectories]: a folder that raises ends the run.  The domains are made from the first folder (39, [list(glob)[0]]);
    their files are left out. *)
Definition create_combined (rd : string -> draws) (folders : list string) (o : outputs) : res outputs :=
  match folders with
  | [] => Err IndexError
  | _ => fold_res (create_folder rd) folders o
  end.
End Creators.
