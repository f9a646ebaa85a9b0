(** * What semi-online learning should say *)
From Verif Require Export SemiModel NoamSpec EpisodeSpec.
Open Scope string_scope. Open Scope list_scope. Open Scope nat_scope.

(** What happened while one problem was worked on: whether domains were tried, the traces of the plans that were executed with the safe
    and with the optimistic domain, the rounds of exploration, the trajectory in parts, and what is reported. *)
Record visit := mk_visit
  { vi_planned : bool; vi_safe : option (list ncomponent); vi_optimistic : option (list ncomponent);
    vi_rounds : list (list episode_step); vi_parts : list (list episode_step);
    vi_goal : bool; vi_solved : bool; vi_safe_status : status; vi_optimistic_status : status }.
Definition vi_steps (v : visit) : list episode_step := concat (vi_rounds v).

(** ** Exploring *)
(** One round in the state [w]: actions are tried there until one succeeds; if none does, all were tried. *)
Definition round_at (E : environment) (w : world) (r : list episode_step) (w' : world) : Prop :=
  Forall (attempt_at E w) r /\ exists failed last, r = failed ++ [last] /\ Forall (fun s => es_ok s = false) failed /\ es_next last = w' /\
    (es_ok last = false -> forall c, In c (en_actions E) -> NoDup (c_params c) -> In c (map es_call r)).
Inductive roams (E : environment) : world -> list (list episode_step) -> list world -> Prop :=
| roams_nil w : roams E w [] []
| roams_round w r w' rs ws : round_at E w r w' -> roams E w' rs ws -> roams E w (r :: rs) (w' :: ws).
Definition successes (n : string) (l : list episode_step) : nat := length (filter (fun s => es_ok s && String.eqb (c_name (es_call s)) n) l).
Definition refusals (n : string) (l : list episode_step) : nat := length (filter (fun s => negb (es_ok s) && String.eqb (c_name (es_call s)) n) l).

(** ** Learning *)
Definition as_trace (l : list episode_step) : list ncomponent := map as_component l.
Definition trace_list (t : option (list ncomponent)) : list (list ncomponent) := match t with Some t => [t] | None => [] end.
(** After an exploration that does not reach the goal the undecided failures are looked at once more: a lesson without transitions. *)
Definition second_look (v : visit) : list (list ncomponent) := if vi_goal v then [] else [[]].
(** The traces that are learned from in a visit, in order, and those that are waiting afterwards: the explorations wait until a domain is tried
    the next time, then all of them are learned from, before the plans. *)
Definition lesson (waiting : list (list ncomponent)) (v : visit) : list (list ncomponent) * list (list ncomponent) :=
  let explored := map as_trace (vi_parts v) in
  if vi_planned v then (waiting ++ trace_list (vi_safe v) ++ trace_list (vi_optimistic v) ++ second_look v, explored)
  else (second_look v, waiting ++ explored).
Fixpoint lessons (waiting : list (list ncomponent)) (vs : list visit) : list (list ncomponent) * list (list ncomponent) :=
  match vs with
  | [] => ([], waiting)
  | v :: vs => let (learned, waiting) := lesson waiting v in let (more, waiting) := lessons waiting vs in (learned ++ more, waiting)
  end.
(** A file on the disk holds the trace. *)
Definition holds_trace (f : file world call) (t : list ncomponent) : Prop := map as_component (read_file world call f) = t.

(** The domain that is exported after the traces were learned from. *)
Definition safe_after (le : text -> text -> bool) (unit fine : positive) fit hull schmidt rank (flatten : bool) (dom : domain) (degree : nat)
  (ts : list (list ncomponent)) (model : list (string * exported)) : Prop :=
  exists L, numeric_train le unit fit hull schmidt dom degree ts = Ok L /\ construct_safe_action_model unit fine fit rank flatten dom L = Ok model.
Definition optimistic_after (le : text -> text -> bool) (unit fine : positive) fit hull schmidt rank svm (limit : nat) (flatten : bool) (dom : domain) (degree : nat)
  (ts : list (list ncomponent)) (model : list (string * exported)) : Prop :=
  exists L, numeric_train le unit fit hull schmidt dom degree ts = Ok L /\ construct_optimistic_action_model unit fine fit rank svm limit flatten dom L = Ok model.

Section Spec.
(** The domains that are exported after some traces were learned from. *)
Variables (safe_domain optimistic_domain : list (list ncomponent) -> list (string * exported) -> Prop) (solvers : list solver).
Variables (names : list string) (min_episodes min_executions max_steps max_failed max_file : nat).
(** Domains are tried after some number of problems, or when every action was executed often enough in the explorations before. *)
Definition time_to_plan (index : nat) (before : list episode_step) : Prop :=
  min_episodes <= index \/ forall n, In n names -> min_executions <= successes n before.
(** The exploration from [w], after the steps [before] of all earlier explorations: no round starts once as many steps have failed as are
    allowed; otherwise it goes on until the goal is reached or the number of rounds is used up. *)
Definition explores (before : list episode_step) (P : problem) (w : world) (v : visit) : Prop :=
  vi_solved v = false /\ exists ws, roams (pr_env P) w (vi_rounds v) ws /\ length ws <= max_steps /\
  (forall rs r rs', vi_rounds v = rs ++ r :: rs' -> failures (before ++ concat rs) < max_failed) /\
  if vi_goal v then exists ws' w', ws = ws' ++ [w'] /\ en_goal (pr_env P) w' = Ok true /\ Forall (fun w => en_goal (pr_env P) w = Ok false) ws'
  else Forall (fun w => en_goal (pr_env P) w = Ok false) ws /\
    (length ws = max_steps \/ max_failed <= failures (before ++ vi_steps v) \/ forall c, In c (en_actions (pr_env P)) -> ~ NoDup (c_params c)).
(** The solvers were asked in order, with the given domain, until one had a plan; this was executed from the initial state and ended in [w]. *)
Definition refused (model : list (string * exported)) (P : problem) (sv : solver) : Prop := fst (sv model P) <> st_ok.
Definition attempted (model : list (string * exported)) (P : problem) (t : option (list ncomponent)) (st : status) (w : world) : Prop :=
  match t with
  | None => Forall (refused model P) solvers /\ st = last (map (fun sv : solver => fst (sv model P)) solvers) st_no_solution /\ w = pr_init P
  | Some t => exists svs sv svs' plan b, solvers = svs ++ sv :: svs' /\ Forall (refused model P) svs /\ sv model P = (st_ok, plan) /\
      plan_run (pr_env P) (pr_init P) plan t w b /\
      ((st = st_ok /\ en_goal (pr_env P) w = Ok true) \/ (st = (if b then st_goal_not_achieved else st_not_applicable) /\ en_goal (pr_env P) w = Ok false))
  end.
Definition solved (v : visit) : Prop := vi_rounds v = [] /\ vi_goal v = true /\ vi_solved v = true.
(** The visit of [P] after [learned] was learned from and while [waiting] waits. *)
Definition visited (index : nat) (before : list episode_step) (learned waiting : list (list ncomponent)) (P : problem) (v : visit) : Prop :=
  (vi_planned v = true <-> time_to_plan index before) /\ cut world call max_file (vi_steps v) (vi_parts v) /\
  if vi_planned v then
    exists model w, safe_domain (learned ++ waiting) model /\ attempted model P (vi_safe v) (vi_safe_status v) w /\
    ((vi_safe_status v = st_ok /\ vi_optimistic v = None /\ vi_optimistic_status v = st_irrelevant /\ solved v) \/
     (vi_safe_status v <> st_ok /\ exists model' w', optimistic_domain (learned ++ waiting ++ trace_list (vi_safe v)) model' /\
       attempted model' P (vi_optimistic v) (vi_optimistic_status v) w' /\
       ((vi_optimistic_status v = st_ok /\ solved v) \/ (vi_optimistic_status v <> st_ok /\ explores before P w' v))))
  else vi_safe v = None /\ vi_optimistic v = None /\ vi_safe_status v = st_no_solution /\ vi_optimistic_status v = st_no_solution /\ explores before P (pr_init P) v.
Fixpoint all_visited (index : nat) (before : list episode_step) (learned waiting : list (list ncomponent)) (problems : list problem) (vs : list visit) : Prop :=
  match problems, vs with
  | [], [] => True
  | P :: problems, v :: vs => visited index before learned waiting P v /\
      all_visited (index + 1) (before ++ vi_steps v) (learned ++ fst (lesson waiting v)) (snd (lesson waiting v)) problems vs
  | _, _ => False
  end.

(** ** Reports *)
Definition reported (n : nat) (Pv : problem * visit) (r : row) : Prop :=
  let (P, v) := Pv in
  (forall a, In a names -> dict_get r ("num_" ++ a ++ "_success")%string = Some (CNat (successes a (vi_steps v))) /\
                           dict_get r ("num_" ++ a ++ "_fail")%string = Some (CNat (refusals a (vi_steps v)))) /\
  dict_get r "episode_number" = Some (CNat n) /\ dict_get r "problem_name" = Some (CText (pr_name P)) /\
  dict_get r "num_grounded_actions" = Some (CNat (length (en_actions (pr_env P)))) /\
  dict_get r "sum_failed_actions" = Some (CNat (failures (vi_steps v))) /\
  dict_get r "num_steps_in_episode" = Some (CNat (length (vi_steps v))) /\
  dict_get r "goal_reached" = Some (CBool (vi_goal v)) /\ dict_get r "solver_solved_problem" = Some (CBool (vi_solved v)) /\
  dict_get r "safe_model_solution_status" = Some (CText (status_name (vi_safe_status v))) /\
  dict_get r "optimistic_model_solution_status" = Some (CText (status_name (vi_optimistic_status v))).
End Spec.

(** The number in a column of a row. *)
Definition number_in (column : string) (r : row) : nat := match dict_get r column with Some (CNat n) => n | _ => 0 end.

(** ** Problems *)
(** The actions of each problem are a set. *)
Definition action_sets (problems : list problem) : Prop := forall P, In P problems -> NoDup (en_actions (pr_env P)).
(** Letters, digits and underscores. *)
Definition word_name (s : string) : Prop := s <> "" /\ forall s1 c s2, s = (s1 ++ String c s2)%string -> stem_char c = true.
(** The environments follow the real actions. *)
Definition real_problems (dom : domain) (real : string -> option (action * numeric_part)) (problems : list problem) : Prop :=
  forall P, In P problems -> real_environment dom real (pr_env P).
