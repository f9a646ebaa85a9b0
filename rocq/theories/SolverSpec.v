(** * What the answer of a planner run is *)
From Verif Require Export SolverModel.
Open Scope string_scope. Open Scope list_scope. Open Scope nat_scope.

(** ** One run *)
(** Metric-FF: by the end of the process, its exit code, and the status read from the file it left.  An exit code 0 with
    a text that is neither a plan nor a declared failure is also reported as "no solution". *)
Inductive ff_answer (status_of : content -> string) : ending -> option content -> outcome -> Prop :=
| ff_late left : ff_answer status_of Late left timeout
| ff_no_code left : ff_answer status_of NoCode left timeout
| ff_plan code text : status_of text = "ok" -> ff_answer status_of (Exit code) (Some text) ok
| ff_declared code text : status_of text = "no-solution" -> ff_answer status_of (Exit code) (Some text) no_solution
| ff_unclear text : status_of text <> "ok" -> ff_answer status_of (Exit 0%Z) (Some text) no_solution
| ff_failed code text : code <> 0%Z -> status_of text <> "ok" -> status_of text <> "no-solution" -> ff_answer status_of (Exit code) (Some text) solver_error
| ff_nothing code : code <> 0%Z -> ff_answer status_of (Exit code) None solver_error.

(** The texts that ENHSP prints. *)
Definition contains (text part : string) : Prop := exists before after, text = (before ++ part ++ after)%string.
Definition enhsp_solved (r : outcome_of_run) : Prop := contains (ru_stdout r) "Problem Solved".
Definition enhsp_unsolvable (r : outcome_of_run) : Prop :=
  contains (ru_stdout r) "Problem Detected as Unsolvable" \/ contains (ru_stdout r) "Problem unsolvable" \/
  contains (ru_stderr r) """this.plan"" is null" \/ contains (ru_stderr r) "Goal is not reachable".
Inductive enhsp_answer : outcome_of_run -> outcome -> Prop :=
| en_late r : (forall code, ru_end r <> Exit code) -> enhsp_answer r timeout
| en_plan r code : ru_end r = Exit code -> enhsp_solved r -> enhsp_answer r ok
| en_declared r code : ru_end r = Exit code -> ~ enhsp_solved r -> enhsp_unsolvable r -> enhsp_answer r no_solution
| en_unclear r code : ru_end r = Exit code -> ~ enhsp_solved r -> ~ enhsp_unsolvable r -> enhsp_answer r solver_error.

(** Fast Downward: by the exit code. *)
Inductive fd_answer : Z -> outcome -> Prop :=
| fd_plan : fd_answer 0 ok
| fd_time code : In code [21; 23; 247]%Z -> fd_answer code timeout
| fd_unsolvable code : In code [11; 12]%Z -> fd_answer code no_solution
| fd_failed code : ~ In code [0; 21; 23; 247; 11; 12]%Z -> fd_answer code solver_error.

(** ** Several runs *)
(** [k] runs from number [start] on: all but the last ended with a planner error, and so did the last only if no further run was allowed. *)
Definition repeated (limit start k : nat) (answer : nat -> outcome -> Prop) (o : outcome) : Prop :=
  1 <= k <= limit /\ (forall j, j < k - 1 -> answer (start + j) solver_error) /\ answer (start + (k - 1)) o /\ (k < limit -> o <> solver_error).

(** What happens to the solution file in the runs [start .. start + k - 1]. *)
Definition file_after (what : nat -> option content -> option content) (start k : nat) (old : option content) : option content :=
  fold_left (fun f j => what j f) (seq start k) old.

(** ** A directory of problems: [handled start problem runs o old new] says what is done for one problem. *)
Definition reported (handled : nat -> path -> nat -> outcome -> option content -> option content -> Prop) (solution : path -> list string)
  (other : list string -> Prop) (problems : list path) (m m' : machine) (report : list (string * string)) : Prop :=
  map fst report = map stem_of problems /\
  (exists uses, length uses = length problems /\ m_runs m' = m_runs m + list_sum uses /\
     forall i problem, nth_error problems i = Some problem -> exists k o, nth_error uses i = Some k /\
       dict_get report (stem_of problem) = Some (outcome_name o) /\
       handled (m_runs m + list_sum (firstn i uses)) problem k o (dict_get (m_files m) (solution problem)) (dict_get (m_files m') (solution problem))) /\
  forall f, ~ In f (map solution problems) -> other f -> dict_get (m_files m') f = dict_get (m_files m) f.

(** ** One problem *)
Definition ff_handled (process : nat -> command -> outcome_of_run) (status_of : content -> string) (plan_of : content -> content)
  (asked : path -> command) (start : nat) (problem : path) (runs : nat) (o : outcome) (old new : option content) : Prop :=
  let r := process start (asked problem) in let left := ru_solution r old in
  runs = 1 /\ ff_answer status_of (ru_end r) left o /\ new = match o with ok => option_map plan_of left | _ => None end.
Definition enhsp_handled (process : nat -> command -> outcome_of_run) (asked : path -> command) (start : nat) (problem : path) (runs : nat) (o : outcome)
  (old new : option content) : Prop :=
  repeated 4 start runs (fun i => enhsp_answer (process i (asked problem))) o /\
  new = file_after (fun i => ru_solution (process i (asked problem))) start runs old.
Definition fd_ends (process : nat -> command -> outcome_of_run) (asked : path -> command) (problem : path) (i : nat) (o : outcome) : Prop :=
  exists code, ru_end (process i (asked problem)) = Exit code /\ fd_answer code o.
Definition fd_handled (process : nat -> command -> outcome_of_run) (asked : path -> command) (start : nat) (problem : path) (runs : nat) (o : outcome)
  (old new : option content) : Prop :=
  repeated 4 start runs (fd_ends process asked problem) o /\
  new = let left := file_after (fun i => ru_solution (process i (asked problem))) start runs old in
        match o with ok => option_map (@removelast string) left | _ => left end.

(** A process that ends with exit code 0 has written its solution file. *)
Definition writes_solutions (process : nat -> command -> outcome_of_run) : Prop :=
  forall i c old, ru_end (process i c) = Exit 0%Z -> ru_solution (process i c) old <> None.
Definition always_ends (process : nat -> command -> outcome_of_run) : Prop := forall i c, exists code, ru_end (process i c) = Exit code.
