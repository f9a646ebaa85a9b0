(** * Generating a data set

    Model of trajectory_creators/experiments_trajectories_creator.py and experiments/experiments_dataset_generator.py (the regular trajectories) on
    top of the model of the planners (SolverModel.v).  The parsers of domains, problems and plans and the exporter of trajectories belong to
    pddl_plus_parser: they are variables that may raise.  Logging and the command line are left out. *)
From Verif Require Export SolverModel.
From Verif Require Import Prelude.
Open Scope string_scope. Open Scope list_scope. Open Scope nat_scope.

(** utilities/common.py: the planners *)
Inductive solver_type := fast_downward | metric_ff | enhsp.

(** The name of a file directly in a directory *)
Fixpoint strip_dir (dir key : list string) : option string :=
  match dir, key with
  | [], [name] => Some name
  | d :: dir, k :: key => if String.eqb d k then strip_dir dir key else None
  | _, _ => None
  end.
Definition strip_suffix (suffix name : string) : option string :=
  let n := String.length name - String.length suffix in
  if (String.length suffix <=? String.length name) && String.eqb (String.substring n (String.length suffix) name) suffix
  then Some (String.substring 0 n name) else None.
(** [dir.glob("*<suffix>")]: the names without the suffix, in any order *)
Definition glob (m : machine) (dir : path) (suffix : string) : list string :=
  flat_map (fun key => match strip_dir (resolve (m_cwd m) dir) key with
                       | Some name => match strip_suffix suffix name with Some stem => [stem] | None => [] end
                       | None => []
                       end) (dict_keys (m_files m)).
Definition read (m : machine) (p : path) : res content := match file_at m p with Some c => Ok c | None => Err KeyError end.

Section Creator.
Variables domain problem : Type.
(** [DomainParser(path).parse_domain()], [ProblemParser(path, domain).parse_problem()] *)
Variables (parse_domain : content -> res domain) (parse_problem : domain -> content -> res problem).
(** [trajectory_exporter.parse_plan(problem, path)] and the lines that [export_to_file] writes *)
Variable execute : domain -> problem -> content -> res content.
(** [MetricFFParser().parse_plan(path, path)], [ENHSPParser().parse_plan(path)]: the new text of the file *)
Variables ff_fix enhsp_fix : content -> res content.

Definition pddl_of (dir : path) (stem : string) : path := join dir (stem ++ ".pddl")%string.
Definition solution_of (dir : path) (stem : string) : path := join dir (stem ++ ".solution")%string.
Definition trajectory_of (dir : path) (stem : string) : path := join dir (stem ++ ".trajectory")%string.

(** experiments_trajectories_creator.py 25-41 [fix_solution_files] *)
Definition fix_file (parse : content -> res content) (dir : path) (m : machine) (stem : string) : res machine :=
  let* text := read m (solution_of dir stem) in
  let* text := parse text in
  Ok (put m (solution_of dir stem) (Some text)).
Definition fix_solution_files (dir : path) (solver : solver_type) (m : machine) : res machine :=
  match solver with
  | metric_ff => fold_res (fix_file ff_fix dir) (glob m dir ".solution") m
  | enhsp => fold_res (fix_file enhsp_fix dir) (glob m dir ".solution") m
  | fast_downward => Ok m
  end.

(** 57: the exceptions that are caught *)
Definition caught (e : exc) : bool := match e with ValueError | IndexError => true | _ => false end.
(** 48-58: one solution file *)
Definition one_trajectory (d : domain) (dir : path) (m : machine) (stem : string) : res machine :=
  match file_at m (trajectory_of dir stem) with
  | Some _ => Ok m
  | None =>
      let* text := read m (pddl_of dir stem) in
      let* p := parse_problem d text in
      match (let* plan := read m (solution_of dir stem) in execute d p plan) with
      | Ok lines => Ok (put m (trajectory_of dir stem) (Some lines))
      | Err e => if caught e then Ok m else Err e
      end
  end.
(** 43-58 [create_domain_trajectories] *)
Definition create_domain_trajectories (domain_file_name : string) (dir : path) (m : machine) : res machine :=
  let* text := read m (join dir domain_file_name) in
  let* d := parse_domain text in
  fold_res (one_trajectory d dir) (glob m dir ".solution") m.

(** ** experiments_dataset_generator.py *)
(** The planners (see SolverModel.v) *)
Variables (directory : list string -> bool) (process : nat -> command -> outcome_of_run).
Variables (get_solving_status : content -> string) (parse_plan : content -> content) (METRIC_FF_DIRECTORY : path).
Variables (FAST_DOWNWARD_DIR_PATH : path) (sas_name : nat -> string) (sas_text : nat -> option content).

(** [problems_directory_path.glob(f"{problems_prefix}*.pddl")]: paths without the suffix *)
Definition problems_of (m : machine) (dir : path) (prefix : string) : list path :=
  map (join dir) (filter (String.prefix prefix) (glob m dir ".pddl")).

(** 58-73 [generate_dataset] with regular trajectories.  Fast Downward changes the working directory before it looks for problems
    (fast_downward_solver.py 129-131). *)
Definition solve_all (solver : solver_type) (domain_path dir : path) (prefix : string) (limit : nat) (m : machine) : res machine :=
  match solver with
  | fast_downward =>
      let* there := chdir directory m FAST_DOWNWARD_DIR_PATH in
      let* (m, _) := execute_fast_downward directory process FAST_DOWNWARD_DIR_PATH sas_name sas_text m domain_path dir (problems_of there dir prefix) limit (1 # 100) in
      Ok m
  | metric_ff =>
      let* (m, _) := execute_metric_ff directory process get_solving_status parse_plan METRIC_FF_DIRECTORY m domain_path dir (problems_of m dir prefix) limit (1 # 10) in
      Ok m
  | enhsp => let (m, _) := execute_enhsp process m domain_path dir (problems_of m dir prefix) limit (1 # 10) in Ok m
  end.
(** [domain_file_path.name] is the last part of the path. *)
Definition generate_dataset (solver : solver_type) (domain_path dir : path) (prefix : string) (limit : nat) (m : machine) : res machine :=
  let* m := solve_all solver domain_path dir prefix limit m in
  create_domain_trajectories (stem_of domain_path) dir m.
End Creator.
